(** The text of floating-point numbers in a field, by the kind of presentation. *)
From Coq Require Import QArith Qpower Qabs Lqa.
From Verif Require Import Base.Cpp Model.Numeric Model.FmtInt Model.Format Model.Dragonbox Model.FloatLayout Model.Bigint Model.FloatDigits
  Spec.FormatSpec Spec.FieldSpec Spec.FloatSpec Spec.FloatText Spec.FloatRound Spec.FloatField
  Proofs.FmtIntProofs Proofs.FormatWrite Proofs.FormatValue Proofs.FloatSpecProofs Proofs.DragonboxArith Proofs.DragonboxProofs Proofs.SegmentProofs
  Proofs.FirstSegment Proofs.DragonProofs Proofs.FloatLayoutProofs Proofs.FloatTextProofs Proofs.FloatDigitsProofs
  Proofs.FloatPrecisionProofs.
Set Default Proof Using "Type".
Ltac Zify.zify_post_hook ::= idtac.
Local Open Scope Z_scope.
Local Notation decimal := FloatSpec.decimal.

(** ** Bodies *)
Definition fspecs (I : float_info) (P : Z) (fmt : float_format) (sg : sign) (u point : bool) : float_specs :=
  FSpecs P fmt sg u false (carrier_bits I =? 32) point.
Definition float_rest (E : env) (pt : Z) (I : float_info) (out : list Z) (m P : Z) (fmt : float_format) (sg : sign) (u point : bool) (sp : specs)
    : res (list Z) :=
  let* (buffer, exp) := format_float (as_double I m) m P (fspecs I 0 fmt sg u point) in
  do_write_float E pt out (SChars buffer) exp sp (fspecs I P fmt sg u point).
Definition given (p : Z) : Z := if decide (0 <= p) then p else 6.

Lemma body_fixed E pt I out m u f p sp sg : body_specs f p sp ->
  float_body E pt I out m (FFixed u) sp (set_fs_sign (parse_float_type_spec (FFixed u) sp) sg)
  = float_rest E pt I out m (given p) Fixed sg u (f_alternate f || negb (p =? 0)) sp.
Proof.
  intros (_ & Hp & Ha & Hl). unfold float_body, float_rest, fspecs, given, parse_float_type_spec, set_fs_sign, set_fs_precision, set_fs_binary32.
  cbn [fs_format fs_precision fs_sign fs_upper fs_locale fs_binary32 fs_showpoint]. rewrite Hp, Ha, Hl.
  rewrite !decide_False by (done || (intros [? _]; done)). cbn [bind].
  replace (if decide (0 <= p \/ FFixed u = FNone) then p else 6) with (if decide (0 <= p) then p else 6)
    by (destruct (decide (0 <= p)); [rewrite decide_True by (by left)|rewrite decide_False by (intros [|]; done)]; done).
  by destruct (carrier_bits I =? 32).
Qed.
Lemma body_exp E pt I out m u f p sp sg : body_specs f p sp -> p < max_int ->
  float_body E pt I out m (FExp u) sp (set_fs_sign (parse_float_type_spec (FExp u) sp) sg)
  = float_rest E pt I out m (given p + 1) Exp sg u (f_alternate f || negb (p =? 0)) sp.
Proof.
  intros (_ & Hp & Ha & Hl) Hmax. unfold float_body, float_rest, fspecs, given, parse_float_type_spec, set_fs_sign, set_fs_precision, set_fs_binary32.
  cbn [fs_format fs_precision fs_sign fs_upper fs_locale fs_binary32 fs_showpoint]. rewrite Hp, Ha, Hl.
  rewrite decide_False by done. rewrite (decide_True (P := Exp = Exp)) by done.
  replace (if decide (0 <= p \/ FExp u = FNone) then p else 6) with (if decide (0 <= p) then p else 6)
    by (destruct (decide (0 <= p)); [rewrite decide_True by (by left)|rewrite decide_False by (intros [|]; done)]; done).
  rewrite decide_False by (destruct (decide (0 <= p)); unfold max_int in *; lia). cbn [bind].
  by destruct (carrier_bits I =? 32).
Qed.
(** Without a type a number has a precision only if one is given. *)
Lemma body_general E pt I out m pr u f p sp sg : body_specs f p sp -> pr = FGeneral u \/ (pr = FNone /\ u = false /\ 0 <= p) ->
  float_body E pt I out m pr sp (set_fs_sign (parse_float_type_spec pr sp) sg)
  = float_rest E pt I out m (Z.max 1 (given p)) General sg u (f_alternate f) sp.
Proof.
  intros (_ & Hp & Ha & Hl) Hpr.
  assert (Hparse : parse_float_type_spec pr sp = FSpecs 0 General SNone u false false (f_alternate f)).
  { destruct Hpr as [-> |(-> & -> & _)]; cbn; by rewrite Ha, Hl, orb_false_r. }
  unfold float_body, float_rest, fspecs. rewrite Hparse. unfold set_fs_sign, set_fs_precision, set_fs_binary32.
  cbn [fs_format fs_precision fs_sign fs_upper fs_locale fs_binary32 fs_showpoint]. rewrite Hp.
  rewrite decide_False by done. rewrite (decide_False (P := General = Exp)) by done.
  assert (Hg : (if decide (0 <= p \/ pr = FNone) then p else 6) = given p).
  { unfold given. destruct (decide (0 <= p)) as [H|H]; [by rewrite decide_True by (by left)|].
    rewrite decide_False; [done|]. intros [|Hn]; [done|]. destruct Hpr as [-> |(_ & _ & ?)]; done. }
  rewrite Hg.
  assert (Hmx : (if decide (General <> Fixed /\ given p = 0) then Ok 1 else Ok (given p)) = Ok (Z.max 1 (given p))).
  { assert (0 <= given p) by (unfold given; destruct (decide (0 <= p)); lia).
    destruct (decide (General <> Fixed /\ given p = 0)) as [[_ H0]|H0]; f_equal; [lia|].
    assert (given p <> 0) by (intros ?; apply H0; done). lia. }
  rewrite Hmx. cbn [bind]. by destruct (carrier_bits I =? 32).
Qed.
Lemma body_shortest E pt I out m f p sp sg : body_specs f p sp -> p < 0 ->
  float_body E pt I out m FNone sp (set_fs_sign (parse_float_type_spec FNone sp) sg)
  = float_rest E pt I out m p General sg false (f_alternate f) sp.
Proof.
  intros (_ & Hp & Ha & Hl) Hneg.
  unfold float_body, float_rest, fspecs, parse_float_type_spec, set_fs_sign, set_fs_precision, set_fs_binary32.
  cbn [fs_format fs_precision fs_sign fs_upper fs_locale fs_binary32 fs_showpoint]. rewrite Hp, Ha, Hl, orb_false_r.
  rewrite decide_False by done. rewrite (decide_False (P := General = Exp)) by done.
  rewrite (decide_True (P := 0 <= p \/ FNone = FNone)) by (by right).
  rewrite (decide_False (P := General <> Fixed /\ p = 0)) by lia. cbn [bind].
  by destruct (carrier_bits I =? 32).
Qed.

(** No digits: zero with [p] decimals. *)
Lemma layout_empty E pt I out e p sg u point sp : 0 <= width sp < 2 ^ 31 -> 0 <= p -> e < - p ->
  do_write_float E pt out (SChars []) e sp (fspecs I p Fixed sg u point)
  = Ok (out ++ float_in sp (sign_chars sg ++ [48] ++ (if decide (0 < p \/ point = true) then [46] else []) ++ zeros p)).
Proof.
  intros Hw Hp He. unfold do_write_float, fspecs. cbn [get_significand_size length bind].
  change (Z.of_nat 0) with 0. rewrite to_unsigned_ok by lia. cbn [bind use_exp_format fs_format fs_sign fs_precision fs_showpoint fs_locale].
  rewrite Z.add_0_r. rewrite !decide_False by lia. rewrite decide_True by lia.
  rewrite to_unsigned_ok by lia. cbn [bind].
  replace (negb (p =? 0) || negb (0 =? 0) || point) with (bool_decide (0 < p \/ point = true)).
  2:{ destruct (Z.eqb_spec p 0) as [->|Hne]; cbn.
      - destruct point; [by rewrite bool_decide_eq_true_2 by (by right)|by rewrite bool_decide_eq_false_2 by (intros [|]; [lia|done])].
      - rewrite bool_decide_eq_true_2 by (left; lia). done. }
  set (text := sign_chars sg ++ [48] ++ (if decide (0 < p \/ point = true) then [46] else []) ++ zeros p).
  assert (Hl : 0 + sign_size sg + 1 + (if bool_decide (0 < p \/ point = true) then 1 else 0) + p = Z.of_nat (length text)).
  { unfold text. rewrite !app_length. pose proof (sign_chars_length sg). pose proof (zeros_length p Hp). cbn [length].
    destruct (decide (0 < p \/ point = true)) as [H1|H1]; [rewrite bool_decide_eq_true_2 by done|rewrite bool_decide_eq_false_2 by done]; cbn [length]; lia. }
  rewrite Hl. unfold float_in. apply write_padded_ok; [done|lia|].
  intros it. unfold text. destruct (decide (0 < p \/ point = true)) as [H1|H1];
    [rewrite bool_decide_eq_true_2 by done|rewrite bool_decide_eq_false_2 by done]; cbn [negb write_digits bind].
  - rewrite take_nil, app_nil_r. f_equal. unfold zeros. rewrite <- !app_assoc. done.
  - assert (p = 0) as -> by lia. f_equal.
Qed.

(** Zeros after the digits. *)
Lemma sci_zeros u point point' k ds j s : 0 <= k -> (0 < length ds)%nat ->
  (length ds = 1%nat /\ point = false <-> Z.of_nat (length ds) + k = 1 /\ point' = false) ->
  scientific_text u point k ds j s -> scientific_text u point' 0 (ds ++ replicate (Z.to_nat k) 0) (j - k) s.
Proof.
  intros Hk Hne Hpt (ex & Hex & ->). exists ex.
  assert (Hl : length (ds ++ replicate (Z.to_nat k) 0) = (length ds + Z.to_nat k)%nat) by (by rewrite app_length, replicate_length).
  split.
  - rewrite Hl, Nat2Z.inj_add, Z2Nat.id by lia. by replace (Z.of_nat (length ds) + k + (j - k) - 1) with (Z.of_nat (length ds) + j - 1) by lia.
  - rewrite Hl. rewrite take_app_le, drop_app_le by lia. rewrite digit_text_app, <- zeros_digits. rewrite <- app_assoc. f_equal. f_equal.
    destruct (decide (length ds = 1%nat /\ point = false)) as [H|H], (decide ((length ds + Z.to_nat k)%nat = 1%nat /\ point' = false)) as [H'|H']; try done; exfalso.
    + apply H'. apply Hpt in H as [H1 H2]. split; [lia|done].
    + apply H. apply Hpt. destruct H'. split; [lia|done].
Qed.

Lemma sci_unique u point k ds j s s' : scientific_text u point k ds j s -> scientific_text u point k ds j s' -> s = s'.
Proof.
  intros (ex & (xs & Hxs & ->) & ->) (ex' & (xs' & Hxs' & ->) & ->).
  pose proof (numeral_unique 10 false _ _ _ ltac:(lia) Hxs Hxs') as Heq.
  assert (length xs = length xs') as -> by (by rewrite <- (digit_text_length xs), Heq, digit_text_length).
  by rewrite Heq.
Qed.

(** *** A number of decimals *)
Lemma fixed_layout E pt I out ds p sg u point sp : 0 <= width sp < 2 ^ 31 -> 0 <= p -> (0 < p -> point = true) ->
  (0 < length ds)%nat -> Z.of_nat (length ds) <= max_int ->
  do_write_float E pt out (SChars (digit_text ds)) (- p) sp (fspecs I p Fixed sg u point)
  = Ok (out ++ float_in sp (sign_chars sg ++ fixed_text point 0 ds (- p))).
Proof.
  intros Hw Hp Hpt Hne Hmax. pose proof (sig_chars ds) as Hs. set (fs := fspecs I p Fixed sg u point).
  set (len := Z.of_nat (length ds)) in *.
  destruct (decide (p = 0)) as [->|Hp0].
  { rewrite (layout_int E pt out _ ds (- 0) sp fs Hs eq_refl Hw) by (done || (fold len; lia)).
    cbn [fs_sign fs fspecs fs_precision fs_showpoint]. rewrite Z.max_l by lia. done. }
  destruct (decide (0 < - p + len)) as [Hpos|Hneg].
  - rewrite (layout_mixed E pt out _ ds (- p) sp fs Hs eq_refl Hw) by (done || (fold len; lia)).
    cbn [fs_sign fs fspecs fs_precision fs_showpoint]. rewrite Hpt by lia. rewrite Z.max_l by (fold len; lia). done.
  - rewrite (layout_small E pt out _ ds (- p) sp fs Hs eq_refl Hw) by (done || (fold len; lia)). done.
Qed.

(** Digits in the general format. *)
Lemma general_layout E pt I ds j P u (point : bool) : ds <> [] -> -400 <= Z.of_nat (length ds) + j <= 400 ->
  let len := Z.of_nat (length ds) in
  let k := if point then Z.max 0 (P - len) else 0 in
  exists text,
    (if decide (-4 <= len + j - 1 < (if decide (P > 0) then P else 16)) then
       text = fixed_text point (if decide (0 <= j) then Z.max 0 (P - (j + len)) else if decide (0 < len + j) then k else 0) ds j
     else scientific_text u point k ds j text) /\
    forall out sg sp, 0 <= width sp < 2 ^ 31 ->
      do_write_float E pt out (SChars (digit_text ds)) j sp (fspecs I P General sg u point)
      = Ok (out ++ float_in sp (sign_chars sg ++ text)).
Proof.
  intros Hne Hx len k. assert (Hlen : 0 < len) by (unfold len; destruct ds; [done|cbn; lia]).
  pose proof (sig_chars ds) as Hs. fold len in Hx.
  assert (Huse : forall sg, use_exp_format (fspecs I P General sg u point) (j + len - 1)
    = negb (bool_decide (-4 <= len + j - 1 < (if decide (P > 0) then P else 16)))).
  { intros sg. unfold use_exp_format. cbn [fspecs fs_format fs_precision]. set (t := if decide (P > 0) then P else 16).
    destruct (Z.ltb_spec (j + len - 1) (-4)), (Z.leb_spec t (j + len - 1)); cbn [orb];
      first [rewrite bool_decide_eq_true_2 by lia|rewrite bool_decide_eq_false_2 by lia]; done. }
  destruct (decide (-4 <= len + j - 1 < (if decide (P > 0) then P else 16))) as [Hin|Hout].
  - eexists. split; [reflexivity|]. intros out sg sp Hw. specialize (Huse sg). rewrite bool_decide_eq_true_2 in Huse by done.
    destruct (decide (0 <= j)) as [Hj|Hj].
    + rewrite (layout_int E pt out _ ds j sp (fspecs I P General sg u point) Hs eq_refl Hw); [done|done|done| |done].
      fold len. unfold max_int. lia.
    + destruct (decide (0 < len + j)) as [Hp|Hp].
      * rewrite (layout_mixed E pt out _ ds j sp (fspecs I P General sg u point) Hs eq_refl Hw); [done|lia| |done].
        fold len. unfold max_int. lia.
      * rewrite (layout_small E pt out _ ds j sp (fspecs I P General sg u point) Hs eq_refl Hw); [done|fold len; lia|done|done].
  - assert (Hw0 : 0 <= width default_specs < 2 ^ 31) by done.
    destruct (layout_exp E pt [] (SChars (digit_text ds)) ds j default_specs (fspecs I P General SNone u point) Hs eq_refl
      Hw0 Hne ltac:(fold len; lia)) as (text & _ & Htext).
    { fold len. rewrite Huse. by rewrite bool_decide_eq_false_2. }
    cbn [fspecs fs_upper fs_showpoint fs_precision] in Htext. exists text. split; [exact Htext|]. intros out sg sp Hw.
    destruct (layout_exp E pt out (SChars (digit_text ds)) ds j sp (fspecs I P General sg u point) Hs eq_refl
      Hw Hne ltac:(fold len; lia)) as (text' & -> & Htext').
    { fold len. rewrite Huse. by rewrite bool_decide_eq_false_2. }
    cbn [fspecs fs_upper fs_showpoint fs_precision fs_sign] in *. by rewrite (sci_unique _ _ _ _ _ _ _ Htext' Htext).
Qed.
Lemma fixed_no_point k k' ds j : (0 <= j \/ k = k') -> fixed_text false k ds j = fixed_text false k' ds j.
Proof. intros [Hj| ->]; [|done]. unfold fixed_text. by rewrite !decide_True. Qed.
Lemma fixed_zeros point k ds j : j < 0 -> 0 < Z.of_nat (length ds) + j -> 0 <= k ->
  fixed_text point 0 (ds ++ replicate (Z.to_nat k) 0) (j - k) = fixed_text point k ds j.
Proof.
  intros Hj Hp Hk. unfold fixed_text. rewrite app_length, replicate_length, Nat2Z.inj_add, Z2Nat.id by lia.
  replace (Z.of_nat (length ds) + k + (j - k)) with (Z.of_nat (length ds) + j) by lia.
  rewrite !(decide_False (P := 0 <= _)) by lia. rewrite !(decide_True (P := 0 < _)) by lia.
  rewrite take_app_le, drop_app_le by lia. rewrite digit_text_app, <- zeros_digits. change (zeros 0) with (@nil Z).
  by rewrite app_nil_r.
Qed.

Section number.
  Context (E : env) (pt : Z) (I : float_info) (F : format) (HIF : kind_of I F) (m : Z).
  Hypothesis Hm : 0 <= m < (emax F - emin F + 2) * 2 ^ (prec F - 1).
  Let v := value (of_bits F m).
  Let b32 := carrier_bits I =? 32.

  Lemma zero_value : m = 0 -> (v == 0)%Q.
  Proof using HIF Hm. intros ->. unfold v. destruct HIF as [[-> ->]|[-> ->]]; done. Qed.

  Lemma value_least : finite_bits F m -> (p10 (-330) <= v)%Q.
  Proof using HIF Hm.
    intros Hfin. assert (Hpr : 2 <= prec F) by (by destruct HIF as [[-> ->]|[-> ->]]).
    pose proof (of_bits_pos F m Hpr Hfin) as Hpos.
    assert (He : -1074 <= exponent (of_bits F m)).
    { assert (-1074 <= emin F) by (by destruct HIF as [[-> ->]|[-> ->]]). unfold finite_bits in Hfin. unfold of_bits.
      assert (0 <= m / 2 ^ (prec F - 1)) by (apply Z.div_pos; [lia|apply Z.pow_pos_nonneg; lia]).
      destruct (Z.eqb_spec (m / 2 ^ (prec F - 1)) 0); cbn [exponent]; lia. }
    unfold v, value. set (f := significand (of_bits F m)) in *. set (e := exponent (of_bits F m)) in *.
    assert (H1 : (p10 (-330) <= p2 (-1074))%Q) by (vm_compute; done).
    eapply Qle_trans; [exact H1|]. replace e with (-1074 + (e + 1074)) by lia. rewrite p2_add, (p2_Z (e + 1074)) by lia.
    pose proof (p2_pos (-1074)) as Hp.
    setoid_replace (inject_Z f * (p2 (-1074) * inject_Z (2 ^ (e + 1074))))%Q with (inject_Z (f * 2 ^ (e + 1074)) * p2 (-1074))%Q
      by (rewrite inject_Z_mult; ring).
    rewrite <- (Qmult_1_l (p2 (-1074))) at 1. apply Qmult_le_compat_r; [|by apply Qlt_le_weak].
    change 1%Q with (inject_Z 1). rewrite <- Zle_Qle. pose proof (Z.pow_pos_nonneg 2 (e + 1074) ltac:(lia) ltac:(lia)). nia.
  Qed.

  Lemma fixed_rest p u point : 0 <= p -> (0 < p -> point = true) -> (v < p10 (767 - p))%Q ->
    exists M text, nearest_even (v * p10 p) M /\ 0 <= M /\ decimals_text point p M text /\
      forall out sg sp, 0 <= width sp < 2 ^ 31 ->
        float_rest E pt I out m p Fixed sg u point sp = Ok (out ++ float_in sp (sign_chars sg ++ text)).
  Proof using HIF Hm.
    intros Hp Hpt Hlt. destruct (as_double_zero I F m HIF Hm) as [[Hz Hzd]|[Hfin Hnz]].
    - exists 0, ([48] ++ (if decide (0 < p \/ point = true) then [46] else []) ++ zeros p). split.
      { eapply nearest_even_proper; [|apply (nearest_even_int 0)]. rewrite zero_value by done. symmetry. apply Qmult_0_l. }
      split; [done|]. split; [by apply zero_decimals|]. intros out sg sp Hw. unfold float_rest, format_float. rewrite Hzd.
      rewrite (decide_True (P := 0 = 0)) by done. cbn [fspecs fs_format]. rewrite bool_decide_eq_true_2 by done.
      destruct (decide (p <= 0 \/ true = false)) as [H0|H0]; cbn [bind].
      + assert (p = 0) as -> by (destruct H0; [lia|done]). pose proof (fixed_layout E pt I out [0] 0 sg u point sp Hw ltac:(lia) ltac:(lia)) as HL.
        etransitivity; [apply HL; [cbn; lia|done]|]. do 4 f_equal. unfold fixed_text. cbn [length]. rewrite decide_True by lia.
        destruct point; [rewrite decide_True by (by right)|rewrite decide_False by (intros [|]; [lia|done])]; done.
      + assert (Hp0 : 0 < p) by lia.
        replace (replicate (Z.to_nat p) 48) with (digit_text (replicate (Z.to_nat p) 0)) by (unfold digit_text; by rewrite fmap_replicate).
        rewrite (layout_small E pt out _ (replicate (Z.to_nat p) 0) (- p) sp (fspecs I p Fixed sg u point) (sig_chars _) eq_refl Hw).
        * cbn [fs_sign fspecs fs_showpoint]. unfold float_in, fixed_text. rewrite replicate_length, Z2Nat.id by lia.
          rewrite (decide_False (P := 0 <= - p)) by lia. rewrite (decide_False (P := 0 < p + - p)) by lia.
          rewrite (decide_True (P := 0 < p \/ point = true)) by (by left). rewrite (zeros_digits p).
          replace (- (p + - p)) with 0 by lia. change (zeros 0) with (@nil Z). rewrite app_nil_r. done.
        * rewrite replicate_length. lia.
        * rewrite replicate_length. lia.
        * done.
    - destruct (digits_core I F m (fspecs I 0 Fixed SNone u point) p HIF Hfin eq_refl Hp) as (x & Hx & Hlo & Hhi & _ & H1 & H2 & H3).
      { intros _. assert (~ (767 - p <= -330)); [|unfold max_int; lia]. intros Hc. apply (Qlt_irrefl v).
        eapply Qlt_le_trans; [exact Hlt|]. eapply Qle_trans; [by apply p10_le|]. by apply value_least. }
      fold v in Hlo, Hhi, H1, H2, H3. change (bool_decide (fs_format (fspecs I 0 Fixed SNone u point) = Fixed)) with true in H1, H2, H3.
      cbn iota in H1, H2, H3.
      assert (Hxp : x < 767 - p).
      { destruct (decide (x < 767 - p)) as [|Hc]; [done|]. exfalso. apply (Qlt_irrefl v). eapply Qlt_le_trans; [exact Hlt|].
        eapply Qle_trans; [|exact Hlo]. apply p10_le. lia. }
      assert (Hrest : forall out sg sp, float_rest E pt I out m p Fixed sg u point sp =
        let* (buffer, exp) := float_core (as_double I m) m p (fspecs I 0 Fixed SNone u point) in
        do_write_float E pt out (SChars buffer) exp sp (fspecs I p Fixed sg u point)).
      { intros out sg sp. unfold float_rest. rewrite format_float_core by done.
        change (float_core (as_double I m) m p (fspecs I 0 Fixed sg u point)) with (float_core (as_double I m) m p (fspecs I 0 Fixed SNone u point)).
        destruct (float_core (as_double I m) m p (fspecs I 0 Fixed SNone u point)) as [[buf exp]| | |]; done. }
      assert (Hcase : forall M ds, nearest_even (v * p10 p) M -> digits_of 10 M ds -> Z.of_nat (length ds) <= max_int ->
        float_core (as_double I m) m p (fspecs I 0 Fixed SNone u point) = Ok (digit_text ds, - p) ->
        exists M text, nearest_even (v * p10 p) M /\ 0 <= M /\ decimals_text point p M text /\
          forall out sg sp, 0 <= width sp < 2 ^ 31 ->
            float_rest E pt I out m p Fixed sg u point sp = Ok (out ++ float_in sp (sign_chars sg ++ text))).
      { intros M ds HM Hds Hlen Hrun. exists M, (fixed_text point 0 ds (- p)). split; [done|].
        split; [destruct Hds as (Hf & <- & _); apply number_bound; [lia|done]|].
        split; [by apply fixed_decimals|]. intros out sg sp Hw. rewrite Hrest, Hrun. cbn [bind].
        apply fixed_layout; try done. destruct Hds as (_ & _ & Hne & _). destruct ds; [done|cbn; lia]. }
      destruct (Z.lt_trichotomy (p + x + 1) 0) as [Hq|[Hq|Hq]].
      + exists 0, ([48] ++ (if decide (0 < p \/ point = true) then [46] else []) ++ zeros p). split.
        { assert (Hpos : (0 <= v * p10 p)%Q).
          { apply Qmult_le_0_compat; [|apply Qlt_le_weak, p10_pos]. eapply Qle_trans; [|exact Hlo]. apply Qlt_le_weak, p10_pos. }
          assert (Hup : (v * p10 p < 1 # 2)%Q).
          { eapply Qlt_trans; [apply Qmult_lt_r; [apply p10_pos|exact Hhi]|]. rewrite <- p10_add.
            eapply Qle_lt_trans; [apply (p10_le _ (-1)); lia|]. done. }
          unfold nearest_even. change (inject_Z 0) with 0%Q. setoid_replace (v * p10 p - 0)%Q with (v * p10 p)%Q by ring.
          rewrite Qabs_pos by done. split; [by apply Qlt_le_weak|]. intros H. rewrite H in Hup. discriminate Hup. }
        split; [done|]. split; [by apply zero_decimals|]. intros out sg sp Hw. rewrite Hrest, H3 by lia. cbn [bind].
        apply layout_empty; [done..|lia].
      + destruct (H2 Hq) as (M & HM & HMr & Hrun). apply (Hcase M [M]).
        * by replace (-1 - x) with p in HM by lia.
        * split_and!; [repeat constructor; lia|cbn; lia|done|cbn; intros [= ->]; done].
        * done.
        * rewrite Hrun. replace (x + 1) with (- p) by lia. cbn [digit_text fmap list_fmap]. by rewrite digit_char_lt10 by lia.
      + destruct (H1 Hq) as (M & HM & HMr & Hrun). cbv zeta in *. rewrite Z.min_l in * by lia.
        replace (p + x + 1 - 1 - x) with p in HM by lia. replace (x + 1 - (p + x + 1)) with (- p) in Hrun by lia.
        destruct (rounded_ok true (p + x + 1) M (- p) ltac:(lia) HMr) as (ds & m' & j & Heq & Hds & _ & Hmj & _).
        destruct (Hmj eq_refl) as [-> ->]. rewrite Heq in Hrun. apply (Hcase M ds); try done.
        pose proof (digits_of_ndigits 10 M ds ltac:(lia) Hds) as (_ & _ & [Hl|Hl]); [rewrite Hl; done|].
        assert (~ (max_int < Z.of_nat (length ds))); [|lia]. intros Hc.
        assert (10 ^ (p + x + 1) < 10 ^ (Z.of_nat (length ds) - 1)) by (apply Z.pow_lt_mono_r; unfold max_int in Hc; lia). lia.
  Qed.

  (** The text stands for the number, whatever the precision. *)
  Lemma fixed_rest_reads p u point : 0 <= p ->
    (forall x, 0 <= x -> (p10 x <= v)%Q -> (v < p10 (x + 1))%Q -> p + x + 1 <= max_int) -> (0 < p -> point = true) ->
    exists M text n e, nearest_even (v * p10 p) M /\ number_text text n e /\ (decimal n e == decimal M (- p))%Q /\
      forall out sg sp, 0 <= width sp < 2 ^ 31 ->
        float_rest E pt I out m p Fixed sg u point sp = Ok (out ++ float_in sp (sign_chars sg ++ text)).
  Proof using HIF Hm.
    intros Hp Hfits Hpt. destruct (Qlt_le_dec v (p10 (767 - p))) as [Hlt|Hge].
    { destruct (fixed_rest p u point ltac:(lia) Hpt Hlt) as (M & text & H1 & H2 & H3 & H4). exists M, text, M, (- p).
      split_and!; try done. by eapply decimals_reads. }
    destruct (as_double_zero I F m HIF Hm) as [[Hz Hzd]|[Hfin Hnz]].
    { exfalso. rewrite zero_value in Hge by done. apply (Qlt_irrefl 0). eapply Qlt_le_trans; [apply p10_pos|exact Hge]. }
    destruct (digits_cases I F m (fspecs I 0 Fixed SNone u point) p HIF Hfin eq_refl Hp) as (x & Hx & Hlo & Hhi & [N HN] & _ & H1).
    fold v in Hlo, Hhi, HN, H1. destruct H1 as (H1 & _ & _); [intros _ Hx0; by apply Hfits|]. change (bool_decide (fs_format (fspecs I 0 Fixed SNone u point) = Fixed)) with true in H1.
    cbn iota in H1.
    assert (Hxp : 767 - p <= x).
    { destruct (decide (767 - p <= x)) as [|Hc]; [done|]. exfalso. apply (Qlt_irrefl v). eapply Qlt_le_trans; [exact Hhi|].
      eapply Qle_trans; [|exact Hge]. apply p10_le. lia. }
    destruct (H1 ltac:(lia)) as (M & HM & HMr & Hrun). cbv zeta in *. rewrite Z.min_r in HM, HMr, Hrun by lia.
    change (767 - 1) with 766 in HM, HMr.
    destruct (more_digits v x N M (p + x + 1) HN HM ltac:(lia)) as [Hval HMp].
    destruct (rounded_ok true 767 M (x + 1 - 767) ltac:(lia) HMr) as (ds & m' & j & Heq & Hds & _ & Hmj & _).
    destruct (Hmj eq_refl) as [-> ->]. rewrite Heq in Hrun. clear Hmj Heq. replace (x + 1 - 767) with (x - 766) in * by lia.
    pose proof Hds as (Hf & Hnum & Hne & _).
    assert (Hlen : 0 < Z.of_nat (length ds)) by (destruct ds; [done|cbn; lia]).
    assert (Hlen2 : Z.of_nat (length ds) <= 768).
    { pose proof (digits_of_ndigits 10 M ds ltac:(lia) Hds) as (_ & _ & [Hl|Hl]); [lia|].
      assert (~ (768 < Z.of_nat (length ds))); [|lia]. intros Hc.
      assert (10 ^ 767 < 10 ^ (Z.of_nat (length ds) - 1)) by (apply Z.pow_lt_mono_r; lia). lia. }
    exists (M * 10 ^ (p + x + 1 - 767)).
    assert (Hdec : (decimal (M * 10 ^ (p + x + 1 - 767)) (- p) == decimal M (x - 766))%Q).
    { rewrite decimal_mul by lia. by replace (- p + (p + x + 1 - 767)) with (x - 766) by lia. }
    assert (Hpos : 0 < p) by lia. rewrite Hpt by done.
    assert (Hlay : exists k, 0 <= k /\ forall out sg sp, 0 <= width sp < 2 ^ 31 ->
      do_write_float E pt out (SChars (digit_text ds)) (x - 766) sp (fspecs I p Fixed sg u true)
      = Ok (out ++ float_in sp (sign_chars sg ++ fixed_text true k ds (x - 766)))).
    { destruct (decide (0 < x - 766 + Z.of_nat (length ds))) as [Hm1|Hm1].
      - exists (Z.max 0 (p - Z.of_nat (length ds))). split; [lia|]. intros out sg sp Hw.
        rewrite (layout_mixed E pt out _ ds (x - 766) sp (fspecs I p Fixed sg u true) (sig_chars ds) eq_refl Hw); [done|lia| |done].
        unfold max_int. lia.
      - exists 0. split; [done|]. intros out sg sp Hw.
        rewrite (layout_small E pt out _ ds (x - 766) sp (fspecs I p Fixed sg u true) (sig_chars ds) eq_refl Hw); [done|lia|lia|done]. }
    destruct Hlay as (k & Hk & Hlay).
    destruct (fixed_text_reads true k ds (x - 766) Hne Hf Hk) as (n & e & Hn & Hne2).
    exists (fixed_text true k ds (x - 766)), n, e. split.
    { by replace (p + x + 1 - 1 - x) with p in HMp by lia. }
    split; [done|]. split; [rewrite Hdec, Hne2; by rewrite Hnum|].
    intros out sg sp Hw. unfold float_rest. rewrite format_float_core by (done || lia).
    change (float_core (as_double I m) m p (fspecs I 0 Fixed sg u true)) with (float_core (as_double I m) m p (fspecs I 0 Fixed SNone u point)).
    rewrite Hrun. cbn [bind]. change (bool_decide (fs_format (fspecs I 0 Fixed sg u true) = Fixed)) with true. cbn [negb andb bind].
    by apply Hlay.
  Qed.

  (** *** A number of significant digits *)
  Lemma digits_rounded P fmt u point : finite_bits F m -> fmt <> Fixed -> 0 < P ->
    exists ds M j, let K := Z.min P 767 in
      Z.of_nat (length ds) = K /\ digits_of 10 M ds /\ 10 ^ (K - 1) <= M < 10 ^ K /\ rounded_to v P (decimal M j) /\ -330 <= K + j <= 322 /\
      (767 < P -> (p10 (K + j - 1) <= v)%Q /\ (v < p10 (K + j))%Q) /\
      forall sg, format_float (as_double I m) m P (fspecs I 0 fmt sg u point)
      = if point then Ok (digit_text ds, j) else remove_zeros (digit_text ds) j.
  Proof using HIF Hm.
    intros Hfin Hfmt HP. destruct (as_double_zero I F m HIF Hm) as [[Hz Hzd]|[_ Hnz]]; [unfold finite_bits in Hfin; lia|].
    assert (Hfix : bool_decide (fmt = Fixed) = false) by (by apply bool_decide_eq_false_2).
    destruct (digits_core I F m (fspecs I 0 fmt SNone u point) P HIF Hfin eq_refl) as (x & Hx & Hlo & Hhi & [N HN] & H1 & _ & _); [lia| |].
    { cbn [fspecs fs_format]. by rewrite Hfix. }
    fold v in Hlo, Hhi, HN, H1. cbn [fspecs fs_format] in H1. rewrite Hfix in H1. destruct (H1 HP) as (M & HM & HMr & Hrun). cbv zeta in *.
    set (K := Z.min P 767) in *.
    destruct (rounded_ok false K M (x + 1 - K) ltac:(lia) HMr) as (ds & m' & j & Heq & Hds & Hdec & _ & Hlen).
    destruct (Hlen eq_refl) as [Hl Hr]. clear Hlen.
    assert (Hsame : forall sg, float_core (as_double I m) m P (fspecs I 0 fmt sg u point) = Ok (digit_text ds, j)).
    { intros sg. rewrite Heq in Hrun. exact Hrun. }
    assert (Hj : M < 10 ^ K /\ j = x + 1 - K \/ M = 10 ^ K /\ j = x + 1 - K + 1).
    { revert Heq. unfold rounded_chars. destruct (decide (M < 10 ^ K)); intros [= _ ->]; [left; lia|right; split; [lia|done]]. }
    exists ds, m', j. split; [done|]. split; [done|]. split; [done|]. split.
    { destruct (decide (P <= 767)) as [Hle|Hgt].
      - assert (K = P) as HK by lia. rewrite HK in *. exists x, M. by split_and!.
      - assert (K = 767) as HK by lia. rewrite HK in *. change (767 - 1) with 766 in *.
        destruct (more_digits v x N M P HN HM ltac:(lia)) as [_ HMp].
        exists x, (M * 10 ^ (P - 767)). split_and!; try done. rewrite Hdec, decimal_mul by lia.
        by replace (x + 1 - P + (P - 767)) with (x + 1 - 767) by lia. }
    split; [lia|]. split.
    { intros Hgt. assert (K = 767) as HK by lia. rewrite HK in *. change (767 - 1) with 766 in *.
      destruct (more_digits v x N M P HN HM ltac:(lia)) as [Hval _].
      assert (M < 10 ^ 767).
      { destruct (decide (M < 10 ^ 767)) as [|Hc]; [done|]. exfalso. apply (Qlt_irrefl v). eapply Qlt_le_trans; [exact Hhi|].
        rewrite <- Hval. unfold decimal. replace (x + 1) with (767 + (x - 766)) by lia. rewrite p10_add.
        apply Qmult_le_compat_r; [|apply Qlt_le_weak, p10_pos]. rewrite (p10_Z 767) by lia. rewrite <- Zle_Qle. lia. }
      assert (j = x + 1 - 767) as -> by lia. replace (767 + (x + 1 - 767) - 1) with x by lia. by replace (767 + (x + 1 - 767)) with (x + 1) by lia. }
    intros sg. rewrite format_float_core by (done || lia). rewrite Hsame. cbn [bind fspecs fs_format fs_showpoint]. rewrite Hfix. by destruct point.
  Qed.

  Lemma exp_rest p u (alternate : bool) point : finite_bits F m -> 0 <= p -> point = (alternate || negb (p =? 0)) ->
    exists ds M j text, Z.of_nat (length ds) = p + 1 /\ digits_of 10 M ds /\ rounded_to v (p + 1) (decimal M j) /\
      scientific_text u alternate 0 ds j text /\
      forall out sg sp, 0 <= width sp < 2 ^ 31 ->
        float_rest E pt I out m (p + 1) Exp sg u point sp = Ok (out ++ float_in sp (sign_chars sg ++ text)).
  Proof using HIF Hm.
    intros Hfin Hp Hpoint. destruct (digits_rounded (p + 1) Exp u point Hfin ltac:(done) ltac:(lia)) as (ds & M & j & Hl & Hds & Hr & Hrd & Hx & _ & Hff).
    cbv zeta in *. set (K := Z.min (p + 1) 767) in *. pose proof Hds as (Hf & Hnum & Hne & Hz).
    assert (Hff' : forall sg, format_float (as_double I m) m (p + 1) (fspecs I 0 Exp sg u point) = Ok (digit_text ds, j)).
    { intros sg. rewrite Hff. destruct point eqn:Hpt; [done|].
      assert (p = 0) as Hp0 by (destruct alternate, (Z.eqb_spec p 0); done || (cbn in Hpoint; discriminate Hpoint) || done).
      assert (HK : K = 1) by (unfold K; lia). rewrite HK in Hr. change (10 ^ (1 - 1)) with 1 in Hr. change (10 ^ 1) with 10 in Hr.
      destruct (remove_zeros_ok ds M j Hds ltac:(lia)) as (ds' & m' & j' & -> & _ & _ & _ & _ & _ & Hid).
      destruct Hid as [-> ->]; [|done]. rewrite Z.mod_small by lia. lia. }
    set (k := p + 1 - K). assert (Hk : 0 <= k) by (unfold k; lia).
    assert (Hkp : (if point then Z.max 0 (p + 1 - Z.of_nat (length ds)) else 0) = k).
    { rewrite Hl. fold K. destruct point eqn:Hpt; [unfold k; lia|].
      assert (p = 0) as -> by (destruct alternate, (Z.eqb_spec p 0); done || (cbn in Hpoint; discriminate Hpoint) || done). done. }
    (* the text does not depend on the rest *)
    destruct (layout_exp E pt [] (SChars (digit_text ds)) ds j default_specs (fspecs I (p + 1) Exp SNone u point) (sig_chars ds) eq_refl
      ltac:(done) Hne ltac:(lia) eq_refl) as (text & _ & Htext).
    cbn [fspecs fs_upper fs_showpoint fs_precision] in Htext. rewrite Hkp in Htext.
    exists (ds ++ replicate (Z.to_nat k) 0), (M * 10 ^ k), (j - k), text.
    split; [rewrite app_length, replicate_length; unfold k in *; lia|]. split.
    { split_and!.
      - apply Forall_app. split; [done|apply replicate_all_digits].
      - by rewrite numb_zeros_after, Hnum by lia.
      - by apply app_not_nil.
      - destruct ds as [|d ds]; [done|]. cbn. intros Hd. specialize (Hz Hd). injection Hz as -> ->.
        exfalso. assert (M = 0) by (rewrite <- Hnum; done). pose proof (Z.pow_pos_nonneg 10 (K - 1) ltac:(lia) ltac:(unfold K; lia)). lia. }
    split.
    { destruct Hrd as (x & M' & H1 & H2 & H3 & H4). exists x, M'. split_and!; try done. rewrite <- H4. rewrite decimal_mul by lia.
      by replace (j - k + k) with j by lia. }
    split.
    { eapply sci_zeros; [done| | |exact Htext]; [lia|]. rewrite Hl. fold K. split.
      - intros [H1 H2]. assert (HK1 : K = 1) by lia. rewrite H2 in Hpoint. destruct alternate; [done|]. split; [|done].
        cbn in Hpoint. destruct (Z.eqb_spec p 0); [|done]. unfold k, K. lia.
      - intros [H1 H2]. split; [lia|]. rewrite H2 in Hpoint. cbn in Hpoint. rewrite Hpoint. assert (p = 0) as -> by (unfold k in *; lia). done. }
    intros out sg sp Hw. unfold float_rest. rewrite Hff'. cbn [bind].
    destruct (layout_exp E pt out (SChars (digit_text ds)) ds j sp (fspecs I (p + 1) Exp sg u point) (sig_chars ds) eq_refl
      Hw Hne ltac:(lia) eq_refl) as (text' & -> & Htext').
    cbn [fspecs fs_upper fs_showpoint fs_precision fs_sign] in *. rewrite Hkp in Htext'.
    by rewrite (sci_unique _ _ _ _ _ _ _ Htext' Htext).
  Qed.

  Lemma general_rest P u : finite_bits F m -> 0 < P ->
    exists ds M j text, digits_of 10 M ds /\ M mod 10 <> 0 /\ rounded_to v P (decimal M j) /\ precise_text u false P ds j text /\
      forall out sg sp, 0 <= width sp < 2 ^ 31 ->
        float_rest E pt I out m P General sg u false sp = Ok (out ++ float_in sp (sign_chars sg ++ text)).
  Proof using HIF Hm.
    intros Hfin HP. destruct (digits_rounded P General u false Hfin ltac:(done) HP) as (ds0 & M0 & j0 & Hl & Hds & Hr & Hrd & Hx & _ & Hff).
    cbv zeta in *. set (K := Z.min P 767) in *.
    pose proof (Z.pow_pos_nonneg 10 (K - 1) ltac:(lia) ltac:(lia)) as Hpw.
    destruct (remove_zeros_ok ds0 M0 j0 Hds ltac:(lia)) as (ds & M & j & Hrem & Hds' & Hlast & Hlen & Hj & Hmul & _).
    pose proof Hds' as (_ & _ & Hne & _).
    destruct (general_layout E pt I ds j P u false Hne ltac:(lia)) as (text & Htext & Hrun). cbv zeta in Htext.
    exists ds, M, j, text. split; [done|]. split; [done|]. split.
    { destruct Hrd as (x & M' & H1 & H2 & H3 & H4). exists x, M'. split_and!; try done. rewrite <- H4, Hmul, decimal_mul by lia.
      by replace (j0 + (j - j0)) with j by lia. }
    split.
    { unfold precise_text. rewrite (decide_True (P := P > 0)) in Htext by lia.
      destruct (decide (-4 <= Z.of_nat (length ds) + j - 1 < P)); [|exact Htext]. rewrite Htext. apply fixed_no_point.
      destruct (decide (0 <= j)); [by left|]. right. by destruct (decide (0 < Z.of_nat (length ds) + j)). }
    intros out sg sp Hw. unfold float_rest. rewrite Hff, Hrem. cbn [bind]. by apply Hrun.
  Qed.
  (** With zeros at the end: too few of them if there are more than 767 digits and the text starts with 0. *)
  Lemma general_rest_alt P u : finite_bits F m -> 0 < P ->
    exists ds M j text, Z.of_nat (length ds) = P /\ digits_of 10 M ds /\ rounded_to v P (decimal M j) /\
      (P <= 767 \/ (1 <= v)%Q \/ (v < p10 (-4))%Q -> precise_text u true P ds j text) /\
      (exists n e, number_text text n e /\ (decimal n e == decimal M j)%Q) /\
      forall out sg sp, 0 <= width sp < 2 ^ 31 ->
        float_rest E pt I out m P General sg u true sp = Ok (out ++ float_in sp (sign_chars sg ++ text)).
  Proof using HIF Hm.
    intros Hfin HP. destruct (digits_rounded P General u true Hfin ltac:(done) HP) as (ds & M & j & Hl & Hds & Hr & Hrd & Hx & Hexact & Hff).
    cbv zeta in *. set (K := Z.min P 767) in *. pose proof Hds as (Hf & Hnum & Hne & Hz).
    pose proof (Z.pow_pos_nonneg 10 (K - 1) ltac:(lia) ltac:(lia)) as Hpw.
    destruct (general_layout E pt I ds j P u true Hne ltac:(lia)) as (text & Htext & Hrun). cbv zeta in Htext.
    set (k := P - K). assert (Hk : 0 <= k) by (unfold k; lia).
    exists (ds ++ replicate (Z.to_nat k) 0), (M * 10 ^ k), (j - k), text.
    split; [rewrite app_length, replicate_length; unfold k in *; lia|]. split.
    { split_and!.
      - apply Forall_app. split; [done|apply replicate_all_digits].
      - by rewrite numb_zeros_after, Hnum by lia.
      - by apply app_not_nil.
      - destruct ds as [|d ds]; [done|]. cbn. intros Hd. specialize (Hz Hd). injection Hz as -> ->.
        exfalso. assert (M = 0) by (rewrite <- Hnum; done). lia. }
    split.
    { destruct Hrd as (x & M' & H1 & H2 & H3 & H4). exists x, M'. split_and!; try done. rewrite <- H4. rewrite decimal_mul by lia.
      by replace (j - k + k) with j by lia. }
    split; [|split; [|intros out sg sp Hw; unfold float_rest; rewrite Hff; cbn [bind]; by apply Hrun]].
    2: { assert (Hrd2 : exists n e, number_text text n e /\ (decimal n e == decimal (numb ds) j)%Q).
         { destruct (decide (-4 <= _ < _)); [|eapply scientific_text_reads; [done|done| |by right|exact Htext]; lia].
           subst text. apply fixed_text_reads; [done|done|]. destruct (decide (0 <= j)); [lia|]. destruct (decide (0 < _)); lia. }
         destruct Hrd2 as (n & e & H1 & H2). exists n, e. split; [done|]. rewrite H2, decimal_mul, Hnum by lia. by replace (j - k + k) with j by lia. }
    intros Hcase. unfold precise_text. rewrite app_length, replicate_length, Nat2Z.inj_add, Z2Nat.id by lia.
    replace (Z.of_nat (length ds) + k + (j - k) - 1) with (Z.of_nat (length ds) + j - 1) by lia.
    rewrite (decide_True (P := P > 0)) in Htext by lia.
    replace (Z.max 0 (P - Z.of_nat (length ds))) with k in Htext by (unfold k; lia).
    destruct (decide (-4 <= Z.of_nat (length ds) + j - 1 < P)) as [Hin|Hout].
    - rewrite Htext. destruct (decide (P <= 767)) as [Hle|Hgt].
      + assert (k = 0) as -> by (unfold k, K; lia). cbn [Z.to_nat replicate]. rewrite app_nil_r, Z.sub_0_r. f_equal.
        destruct (decide (0 <= j)); [lia|]. by destruct (decide (0 < Z.of_nat (length ds) + j)).
      + destruct (Hexact ltac:(lia)) as [Hlo Hhi]. destruct Hcase as [|[H1|H1]]; [lia| |].
        * assert (0 < K + j).
          { destruct (decide (0 < K + j)); [done|]. exfalso. apply (Qlt_irrefl v). eapply Qlt_le_trans; [exact Hhi|].
            eapply Qle_trans; [apply (p10_le _ 0); lia|]. exact H1. }
          rewrite (decide_False (P := 0 <= j)) by lia. rewrite (decide_True (P := 0 < Z.of_nat (length ds) + j)) by lia.
          rewrite fixed_zeros by lia. done.
        * exfalso. apply (Qlt_irrefl v). eapply Qlt_le_trans; [exact H1|]. eapply Qle_trans; [|exact Hlo]. apply p10_le. lia.
    - eapply sci_zeros; [done|lia| |exact Htext]. split; intros [? ?]; done.
  Qed.

  (** *** Zero *)
  Lemma zero_exp p u (alternate : bool) point : m = 0 -> 0 <= p -> point = (alternate || negb (p =? 0)) ->
    forall out sg sp, 0 <= width sp < 2 ^ 31 ->
      float_rest E pt I out m (p + 1) Exp sg u point sp
      = Ok (out ++ float_in sp (sign_chars sg ++ [48] ++ (if decide (0 < p \/ alternate = true) then [46] else []) ++ zeros p
                                 ++ [if u then 69 else 101; 43; 48; 48])).
  Proof using HIF Hm.
    intros Hm0 Hp Hpoint out sg sp Hw. destruct (as_double_zero I F m HIF Hm) as [[_ Hz]|[Hfin _]]; [|unfold finite_bits in Hfin; lia].
    unfold float_rest, format_float. rewrite Hz, decide_True by done.
    cbn [fspecs fs_format]. rewrite decide_True by (by right). cbn [bind].
    destruct (layout_exp E pt out (SChars (digit_text [0])) [0] 0 sp (fspecs I (p + 1) Exp sg u point) (sig_chars [0]) eq_refl
      Hw ltac:(done) ltac:(done) eq_refl) as (text & Hrun & Htext).
    cbn [fspecs fs_upper fs_showpoint fs_precision fs_sign length] in *. change (Z.of_nat 1) with 1 in Htext.
    change (SChars [48]) with (SChars (digit_text [0])). etransitivity; [exact Hrun|]. unfold float_in. 
    assert (text = [48] ++ (if decide (0 < p \/ alternate = true) then [46] else []) ++ zeros p ++ [if u then 69 else 101; 43; 48; 48]) as ->; [|done].
    assert (Hk : (if point then Z.max 0 (p + 1 - 1) else 0) = p).
    { subst point. destruct alternate; cbn; [lia|]. destruct (Z.eqb_spec p 0); cbn; lia. }
    rewrite Hk in Htext. eapply sci_unique; [exact Htext|].
    exists [if u then 69 else 101; 43; 48; 48]. split.
    { exists [0]. split; [|done]. apply numeral_digits. split_and!; [repeat constructor; lia|done|done|done]. }
    cbn [take drop digit_text fmap list_fmap app length]. f_equal.
    destruct (decide (1%nat = 1%nat /\ point = false)) as [[_ H1]|H1], (decide (0 < p \/ alternate = true)) as [H2|H2]; try done; exfalso.
    - subst point. apply orb_false_iff in H1 as [-> H1]. destruct (Z.eqb_spec p 0); [|done]. destruct H2; [lia|done].
    - apply H1. split; [done|]. subst point. destruct alternate; [exfalso; apply H2; by right|]. cbn. destruct (Z.eqb_spec p 0); [done|]. exfalso. apply H2. left. lia.
  Qed.
  Lemma zero_general P u (point : bool) : m = 0 ->
    forall out sg sp, 0 <= width sp < 2 ^ 31 ->
      float_rest E pt I out m P General sg u point sp
      = Ok (out ++ float_in sp (sign_chars sg ++ [48] ++ (if point then [46] ++ zeros (P - 1) else []))).
  Proof using HIF Hm.
    intros Hm0 out sg sp Hw. destruct (as_double_zero I F m HIF Hm) as [[_ Hz]|[Hfin _]]; [|unfold finite_bits in Hfin; lia].
    unfold float_rest, format_float. rewrite Hz, decide_True by done.
    cbn [fspecs fs_format]. rewrite decide_True by (by right). cbn [bind].
    change (SChars [48]) with (SChars (digit_text [0])).
    destruct (general_layout E pt I [0] 0 P u point ltac:(done) ltac:(done)) as (text & Htext & Hrun).
    etransitivity; [exact (Hrun out sg sp Hw)|]. do 4 f_equal.
    cbn [length] in Htext. rewrite decide_True in Htext by (destruct (decide (P > 0)); lia). rewrite Htext.
    unfold fixed_text. rewrite !decide_True by lia. cbn [digit_text fmap list_fmap app]. f_equal. destruct point; [|done].
    cbn [app]. change (zeros 0) with (@nil Z). cbn [app]. f_equal. change (Z.of_nat 1) with 1. unfold zeros. f_equal. lia.
  Qed.

  (** *** The shortest text *)
  Lemma shortest_last s j : shortest (of_bits F m) s j -> s mod 10 <> 0.
  Proof.
    intros (Hs & Hr & Hmin) Hz. pose proof (Z.div_mod s 10 ltac:(lia)) as Hdm. rewrite Hz, Z.add_0_r in Hdm.
    assert (Hq : 0 < s / 10) by lia.
    destruct (Hmin (s / 10) (j + 1) Hq) as [Hlen _].
    { eapply reads_proper; [|exact Hr]. rewrite Hdm at 1. rewrite Z.mul_comm. apply (decimal_mul (s / 10) 1 j). lia. }
    destruct (digits_exist (s / 10) ltac:(lia)) as (ds & Hds).
    pose proof (digits_of_ndigits 10 _ ds ltac:(lia) Hds) as (H1 & H2 & H3).
    pose proof (Hlen (Z.of_nat (length ds)) ltac:(lia) ltac:(lia)) as H4.
    destruct H3 as [H3|H3]; [rewrite H3 in *; change (10 ^ 1) with 10 in *; lia|].
    replace (Z.of_nat (length ds)) with (1 + (Z.of_nat (length ds) - 1)) in H4 by lia.
    rewrite Z.pow_add_r in H4 by lia. change (10 ^ 1) with 10 in H4. lia.
  Qed.

  Lemma shortest_digits p (alternate : bool) : finite_bits F m -> p < 0 ->
    exists s j ds, shortest (of_bits F m) s j /\ digits_of 10 s ds /\ 0 < s < 2 ^ carrier_bits I /\ -400 <= Z.of_nat (length ds) + j <= 400 /\
      (if carrier_bits I =? 32 then to_decimal_float m else to_decimal_double m) = Ok (s, j) /\
      forall sg, format_float (as_double I m) m p (fspecs I 0 General sg false alternate) = Ok (digit_text ds, j).
  Proof using HIF Hm.
    intros Hfin Hp. destruct (as_double_zero I F m HIF Hm) as [[Hz Hzd]|[_ Hnz]]; [unfold finite_bits in Hfin; lia|].
    assert (Hdec : exists s j w, shortest (of_bits F m) s j /\ (w = 32 \/ w = 64) /\ 0 < s < 2 ^ w /\
      (forall ds, digits_of 10 s ds -> -400 <= Z.of_nat (length ds) + j <= 400) /\
      (if carrier_bits I =? 32 then to_decimal_float m else to_decimal_double (as_double I m)) = Ok (s, j) /\
      (if carrier_bits I =? 32 then 32 else 64) = w).
    { assert (Hgen : forall P X s j, 0 < P -> 2 ^ prec F < 10 ^ (P - 1) -> 0 < X <= 398 -> 2 <= prec F -> 0 <= emax F -> emin F <= 1 ->
        2 ^ (prec F + emax F) <= 10 ^ X -> 2 ^ (1 - emin F) <= 10 ^ X -> valid (of_bits F m) -> shortest (of_bits F m) s j ->
        0 < s < 10 ^ P /\ (forall ds, digits_of 10 s ds -> -400 <= Z.of_nat (length ds) + j <= 400)).
      { intros P X s j HP Hpow HX Hpr Hemax Hemin HX1 HX2 Hv Hsh. pose proof (of_bits_pos F m Hpr Hfin) as Hpos.
        pose proof (shortest_short F Hpr P HP Hpow _ s j Hv Hpos Hsh) as Hs. split; [done|]. intros ds Hds.
        pose proof (digits_of_ndigits 10 s ds ltac:(lia) Hds) as (Hl1 & Hl2 & Hl3).
        assert (- X <= Z.of_nat (length ds) - 1 + j < X); [|lia].
        apply (shortest_exponent F Hpr _ s j (Z.of_nat (length ds) - 1) X Hv Hpos Hsh); try done; try lia.
        replace (Z.of_nat (length ds) - 1 + 1) with (Z.of_nat (length ds)) by lia. split; [|done].
        destruct Hl3 as [->|]; [change (10 ^ (1 - 1)) with 1; lia|done]. }
      destruct HIF as [[-> ->]|[-> ->]].
      - destruct (to_decimal_double_shortest m Hfin) as (Hv & s & j & Hrun & Hsh).
        destruct double_side as (H1 & H2 & H3 & H4 & H5 & H6 & H7 & H8 & H9 & H10 & H11 & H12 & H13 & H14).
        destruct (Hgen 17 325 s j H7 H8 ltac:(lia) ltac:(done) H11 H12 H13 H14 Hv Hsh) as [Hs Hd].
        exists s, j, 64. split_and!; try done; try lia.
      - destruct (to_decimal_float_shortest m Hfin) as (Hv & s & j & Hrun & Hsh).
        destruct float_side as (H1 & H2 & H3 & H4 & H5 & H6 & H7 & H8 & H9 & H10 & H11 & H12 & H13 & H14).
        destruct (Hgen 9 60 s j H7 H8 ltac:(lia) ltac:(done) H11 H12 H13 H14 Hv Hsh) as [Hs Hd].
        exists s, j, 32. split_and!; try done; try lia. }
    destruct Hdec as (s & j & w & Hsh & Hw & Hs & Hlen & Hrun & Hwv).
    destruct (digits_exist s ltac:(lia)) as (ds & Hds). specialize (Hlen ds Hds).
    assert (Hff : forall sg, format_float (as_double I m) m p (fspecs I 0 General sg false alternate) = Ok (digit_text ds, j)).
    { intros sg. unfold format_float. rewrite decide_False by done. rewrite decide_True by done. cbn [fspecs fs_binary32 fs_format fs_showpoint].
      rewrite Hrun. cbn [bind]. rewrite Hwv.
      destruct (count_digits_ok w s Hw ltac:(lia)) as (c & Hc & Hcd). rewrite Hc. cbn [bind].
      assert (Hc1 : 1 <= c) by apply Hcd.
      destruct (format_decimal_it_ok w s (Z.to_nat c) Hw ltac:(lia)) as (cs & Hcs & ds' & Hds' & _ & ->); [by rewrite Z2Nat.id by lia|].
      rewrite Hcs. cbn [bind]. rewrite (digits_of_unique s ds' ds) by done. change (digit_char false <$> ds) with (digit_text ds).
      rewrite bool_decide_eq_false_2 by done. cbn [negb andb]. destruct alternate; [done|]. cbn [negb].
      destruct (remove_zeros_ok ds s j Hds ltac:(lia)) as (ds2 & m2 & j2 & -> & _ & _ & _ & _ & _ & Hid).
      destruct Hid as [-> ->]; [by eapply shortest_last|done]. }
    exists s, j, ds. split_and!; try done; try lia.
    - destruct Hw as [-> | ->]; destruct HIF as [[-> _]|[-> _]]; cbn in Hwv |- *; lia.
    - rewrite <- Hrun. unfold as_double. by destruct (carrier_bits I =? 32).
  Qed.
  Lemma shortest_run p (alternate : bool) : finite_bits F m -> p < 0 ->
    exists s j ds text, (if carrier_bits I =? 32 then to_decimal_float m else to_decimal_double m) = Ok (s, j) /\ 0 < s < 2 ^ carrier_bits I /\
      -400 <= Z.of_nat (length ds) + j <= 400 /\ shortest (of_bits F m) s j /\ digits_of 10 s ds /\ precise_text false alternate 16 ds j text /\
      forall out sg sp, 0 <= width sp < 2 ^ 31 ->
        float_rest E pt I out m p General sg false alternate sp = Ok (out ++ float_in sp (sign_chars sg ++ text)).
  Proof using HIF Hm.
    intros Hfin Hp. destruct (shortest_digits p alternate Hfin Hp) as (s & j & ds & Hsh & Hds & Hs & Hlen & Hrun & Hff).
    pose proof Hds as (_ & _ & Hne & _).
    destruct (general_layout E pt I ds j p false alternate Hne Hlen) as (text & Htext & Hlay). cbv zeta in Htext.
    exists s, j, ds, text. split; [done|]. split; [done|]. split; [done|]. split; [done|]. split; [done|]. split.
    { unfold precise_text. rewrite (decide_False (P := p > 0)) in Htext by lia.
      replace (if alternate then Z.max 0 (p - Z.of_nat (length ds)) else 0) with 0 in Htext by (destruct alternate; lia).
      destruct (decide (-4 <= Z.of_nat (length ds) + j - 1 < 16)); [|exact Htext]. rewrite Htext. f_equal.
      destruct (decide (0 <= j)); [lia|]. by destruct (decide (0 < Z.of_nat (length ds) + j)). }
    intros out sg sp Hwd. unfold float_rest. rewrite Hff. cbn [bind]. by apply Hlay.
  Qed.
  Lemma shortest_rest p (alternate : bool) : finite_bits F m -> p < 0 ->
    exists s j ds text, shortest (of_bits F m) s j /\ digits_of 10 s ds /\ precise_text false alternate 16 ds j text /\
      forall out sg sp, 0 <= width sp < 2 ^ 31 ->
        float_rest E pt I out m p General sg false alternate sp = Ok (out ++ float_in sp (sign_chars sg ++ text)).
  Proof using HIF Hm.
    intros Hfin Hp. destruct (shortest_run p alternate Hfin Hp) as (s & j & ds & text & _ & _ & _ & H). by exists s, j, ds, text.
  Qed.
End number.

(** ** What is no number *)
Definition upper_of (pr : float_pres) : bool :=
  match pr with FNone => false | FGeneral u | FExp u | FFixed u | FHex u => u end.
Lemma nonfinite_frame E pt I F out br pr f w p wr pc : kind_of I F -> 0 <= br < 2 ^ carrier_bits I ->
  let m := br mod 2 ^ (carrier_bits I - 1) in let limit := (emax F - emin F + 2) * 2 ^ (prec F - 1) in
  limit <= m -> 0 <= w < 2 ^ 31 ->
  write_float_specs E pt I out br pr (specs_of f w p wr pc)
  = Ok (out ++ nonfinite_in_field f w (2 ^ (carrier_bits I - 1) <=? br)
      (if decide (m = limit) then (if upper_of pr then [73; 78; 70] else [105; 110; 102])
       else (if upper_of pr then [78; 65; 78] else [110; 97; 110]))).
Proof.
  intros HIF Hbr m limit Hm Hw. unfold write_float_specs.
  destruct (sign_bit_ok I F br HIF Hbr) as [-> ->]. fold m. cbv zeta.
  assert (Hmr : 0 <= m < 2 ^ (carrier_bits I - 1)).
  { apply Z.mod_pos_bound. destruct HIF as [[-> _]|[-> _]]; done. }
  pose proof (finite_test I F m HIF Hmr) as Hfin.
  rewrite (decide_True (P := Z.land m (exponent_mask I) = exponent_mask I)) by (by apply Hfin).
  set (neg := 2 ^ (carrier_bits I - 1) <=? br).
  set (sg := if neg then SMinus else match sgn (specs_of f w p wr pc) with SMinus => SNone | s => s end).
  assert (Hsg : sign_chars sg = field_sign f neg).
  { unfold sg, field_sign, plus_text. cbn [sgn specs_of]. unfold sgn_of. destruct neg; [done|]. by destruct (f_sign f) as [[]|]. }
  assert (Hnan : Z.land m (Z.ones (num_significand_bits I)) =? 0 = bool_decide (m = limit)).
  { assert (Hl : exists e, 0 <= num_significand_bits I /\ 0 <= e /\ limit = (2 ^ e - 1) * 2 ^ num_significand_bits I /\
      2 ^ (carrier_bits I - 1) = 2 ^ e * 2 ^ num_significand_bits I).
    { unfold limit. destruct HIF as [[-> ->]|[-> ->]]; [exists 11|exists 8]; split_and!; done. }
    destruct Hl as (e & HM & He & Hl & H2). rewrite Z.land_ones by lia. rewrite H2 in Hmr.
    assert (Hpw : 0 < 2 ^ num_significand_bits I) by (apply Z.pow_pos_nonneg; lia).
    set (B := 2 ^ num_significand_bits I) in *. replace m with (m - limit + (2 ^ e - 1) * B) at 1 by lia.
    rewrite Z.mod_add by lia. rewrite Z.mod_small by lia.
    destruct (Z.eqb_spec (m - limit) 0); [rewrite bool_decide_eq_true_2 by lia|rewrite bool_decide_eq_false_2 by lia]; done. }
  unfold write_nonfinite. rewrite Hnan. cbn [fs_upper fs_sign set_fs_sign fill specs_of].
  assert (Hup : fs_upper (parse_float_type_spec pr (specs_of f w p wr pc)) = upper_of pr) by (by destruct pr).
  rewrite Hup. rewrite <- sign_chars_length. rewrite Hsg.
  set (text := if decide (m = limit) then _ else _).
  assert (Htext : (if negb (bool_decide (m = limit)) then if upper_of pr then [78; 65; 78] else [110; 97; 110]
    else if upper_of pr then [73; 78; 70] else [105; 110; 102]) = text).
  { unfold text. destruct (decide (m = limit)); [rewrite bool_decide_eq_true_2 by done|rewrite bool_decide_eq_false_2 by done]; done. }
  rewrite Htext. assert (Hlen : length text = 3%nat) by (unfold text; destruct (decide (m = limit)), (upper_of pr); done).
  unfold nonfinite_in_field. rewrite app_length, Hlen, Nat2Z.inj_add. change (Z.of_nat 3) with 3. rewrite Z.add_comm.
  destruct (decide (fill_text f = [48])) as [H0|H0].
  - rewrite (write_padded_ok _ _ _ _ _ _ (field_sign f neg ++ text)); [|done|lia|done]. cbn [al fill width set_fill specs_of]. by rewrite place_of.
  - rewrite (write_padded_ok _ _ _ _ _ _ (field_sign f neg ++ text)); [|done|lia|done]. cbn [al fill width specs_of]. by rewrite place_of.
Qed.
