(** Floating-point numbers in base 16. *)
From Coq Require Import QArith Qpower Qabs Lqa.
From Verif Require Import Base.Cpp Model.Numeric Model.FmtInt Model.Format Model.Dragonbox Model.FloatLayout Model.Bigint Model.FloatDigits
  Spec.FormatSpec Spec.FieldSpec Spec.FloatSpec Spec.FloatText Spec.FloatRound Spec.FloatField Spec.EscapeSpec
  Proofs.FmtIntProofs Proofs.EscapeProofs Proofs.FormatWrite Proofs.FormatValue Proofs.FloatSpecProofs Proofs.DragonboxArith Proofs.DragonboxProofs
  Proofs.FloatLayoutProofs Proofs.FloatTextProofs Proofs.FloatDigitsProofs Proofs.FloatPrecisionProofs Proofs.FloatFieldProofs.
Set Default Proof Using "Type".
Ltac Zify.zify_post_hook ::= idtac.
Local Open Scope Z_scope.

Definition hexes (ds : list Z) : Prop := Forall (fun d => 0 <= d < 16) ds.

Lemma padded_hex k f upper : (0 < k)%nat -> 0 <= f < 16 ^ Z.of_nat k -> exists L, hexes L /\ length L = k /\ FormatSpec.number 16 L = f /\
  forall tl, exists e, format_uint 4 (replicate (k + tl) (Some 48)) f k upper
    = Ok (Some <$> ((digit_char upper <$> L) ++ replicate tl 48), e).
Proof.
  intros Hk Hf.
  assert (Hnd : exists c, ndigits (2 ^ 4) f (Z.of_nat c) /\ (c <= k)%nat).
  { clear -Hk Hf. revert f Hf. induction k as [|w IH]; intros f Hf; [lia|].
    destruct (decide (w = 0%nat)) as [->|].
    - exists 1%nat. split; [|lia]. split; [lia|]. split; [cbn in *; lia|by left].
    - destruct (decide (f < 16 ^ Z.of_nat w)) as [Hlt|Hge].
      + destruct (IH ltac:(lia) f ltac:(lia)) as (c & Hc & Hle). exists c. split; [done|lia].
      + exists (S w). split; [|lia]. split; [lia|]. split; [exact (proj2 Hf)|]. right.
        replace (Z.of_nat (S w) - 1) with (Z.of_nat w) by lia. change (2 ^ 4) with 16. lia. }
  destruct Hnd as (c & Hc & Hck).
  assert (Hrun : forall tl, exists ds e, format_uint 4 (replicate (k + tl) (Some 48)) f k upper
    = Ok (Some <$> ((digit_char upper <$> (replicate (k - c) 0 ++ ds)) ++ replicate tl 48), e) /\ digits_of (2 ^ 4) f ds /\ length ds = c).
  { intros tl. destruct (format_uint_ok 4 (replicate k (Some 48)) (replicate tl (Some 48)) f upper c) as ([m e] & Hm & He & ds & Hds & Hlen & Hm').
    - lia.
    - lia.
    - done.
    - by rewrite replicate_length.
    - exists ds, e. split; [|done]. rewrite replicate_add. rewrite replicate_length in Hm. rewrite Hm, Hm'. f_equal. f_equal.
      rewrite replicate_length, take_replicate, Nat.min_l by lia.
      rewrite !fmap_app, !fmap_replicate. by rewrite <- app_assoc. }
  destruct (Hrun 0%nat) as (ds & _ & _ & Hds & Hlen).
  exists (replicate (k - c) 0 ++ ds). pose proof Hds as (Hfo & Hn & _).
  split; [apply Forall_app; split; [apply Forall_replicate; lia|done]|].
  split; [rewrite app_length, replicate_length; lia|]. split; [by rewrite number_zeros|].
  intros tl. destruct (Hrun tl) as (ds' & e & Hrn & Hds' & Hlen'). exists e. rewrite Hrn. do 6 f_equal.
  assert (Hinj : digit_char false <$> ds' = digit_char false <$> ds).
  { destruct Hds' as (H1 & H2 & _). transitivity (hex c f); [|symmetry]; apply hex_eq; done. }
  clear -Hinj Hds Hds'. destruct Hds as (H1 & _), Hds' as (H2 & _). revert ds' Hinj H2.
  induction ds as [|d ds IH]; intros [|d' ds'] Hinj H2; try done. cbn in Hinj. injection Hinj as Hd Hr.
  inversion H1; inversion H2; subst. f_equal; [by eapply digit_char_inj|by apply IH].
Qed.

Lemma number_digits_zero k : FormatSpec.number 16 (replicate k 0) = 0.
Proof. pose proof (number_zeros k []) as H. by rewrite app_nil_r in H. Qed.
Lemma p16_pos q : 0 <= q -> 0 < 16 ^ q.
Proof. intros. apply Z.pow_pos_nonneg; lia. Qed.
Lemma number_take L (q : nat) : hexes L -> (q <= length L)%nat ->
  FormatSpec.number 16 (take q L) = FormatSpec.number 16 L / 16 ^ Z.of_nat (length L - q).
Proof.
  intros HL Hq. rewrite <- (take_drop q L) at 2. rewrite number_app, drop_length.
  pose proof (number_bound 16 (drop q L) ltac:(lia) (Forall_drop _ _ _ HL)) as Hb. rewrite drop_length in Hb.
  rewrite Z.div_add_l by lia. rewrite Z.div_small by done. lia.
Qed.

(** ** The text *)
Section text.
  Context (upper point : bool) (d0 : Z) (L : list Z).
  Context (Hd0 : 0 <= d0 < 16) (HL : hexes L) (HlL : length L = 13%nat).
  Let xdigits : list Z := (digit_char upper <$> (d0 :: L)) ++ [48; 48].

  Lemma xdigit_get q d : 1 <= q <= 13 -> L !! Z.to_nat (q - 1) = Some d -> get xdigits (Z.to_nat q) = Ok (digit_char upper d).
  Proof using Hd0 HL HlL.
    intros Hq Hd. unfold get, xdigits. rewrite lookup_app_l by (rewrite fmap_length; cbn; lia).
    assert (H : (d0 :: L) !! Z.to_nat q = Some d) by (replace (Z.to_nat q) with (S (Z.to_nat (q - 1))) by lia; exact Hd).
    by rewrite list_lookup_fmap, H.
  Qed.

  Lemma strip_ok (p0 : Z) : 0 <= p0 <= 13 -> exists q, 0 <= q <= p0 /\
    loop (S (Z.to_nat p0)) (fun p =>
      if decide (0 < p) then
        let* c := get xdigits (Z.to_nat p) in Ok (if decide (c = 48) then inl (p - 1) else inr p)
      else Ok (inr p)) p0 = Ok q /\
    take (Z.to_nat p0) L = take (Z.to_nat q) L ++ replicate (Z.to_nat (p0 - q)) 0 /\
    (q = 0 \/ exists d, L !! Z.to_nat (q - 1) = Some d /\ d <> 0).
  Proof using Hd0 HL HlL.
    intros Hp0.
    assert (H : wp (loop (S (Z.to_nat p0)) (fun p =>
      if decide (0 < p) then
        let* c := get xdigits (Z.to_nat p) in Ok (if decide (c = 48) then inl (p - 1) else inr p)
      else Ok (inr p)) p0) (fun q => 0 <= q <= p0 /\
        take (Z.to_nat p0) L = take (Z.to_nat q) L ++ replicate (Z.to_nat (p0 - q)) 0 /\
        (q = 0 \/ exists d, L !! Z.to_nat (q - 1) = Some d /\ d <> 0))).
    { apply (wp_loop (fun q => 0 <= q <= p0 /\ take (Z.to_nat p0) L = take (Z.to_nat q) L ++ replicate (Z.to_nat (p0 - q)) 0)
        (fun q => Z.to_nat q)).
      - lia.
      - split; [lia|]. rewrite Z.sub_diag. cbn [replicate Z.to_nat]. by rewrite app_nil_r.
      - intros q (Hq & Htk). destruct (decide (0 < q)) as [Hpos|Hneg].
        + destruct (lookup_lt_is_Some_2 L (Z.to_nat (q - 1)) ltac:(lia)) as [d Hd].
          rewrite (xdigit_get q d) by (done || lia). cbn [bind]. apply wp_ok.
          assert (Hdr : 0 <= d < 16) by (exact (Forall_lookup_1 _ _ _ _ HL Hd)).
          destruct (decide (digit_char upper d = 48)) as [H48|H48].
          * assert (d = 0) as ->.
            { apply (digit_char_inj upper); [done|lia|]. by rewrite H48. }
            split; [|lia]. split; [lia|]. rewrite Htk. replace (Z.to_nat q) with (S (Z.to_nat (q - 1))) by lia.
            rewrite (take_S_r L _ 0) by done. rewrite <- app_assoc. f_equal.
            replace (Z.to_nat (p0 - (q - 1))) with (S (Z.to_nat (p0 - q))) by lia. done.
          * split; [lia|]. split; [done|]. right. exists d. split; [done|]. intros ->. done.
        + apply wp_ok. split; [lia|]. split; [done|]. left. lia. }
    destruct H as (q & Hrun & H1 & H2 & H3). exists q. done.
  Qed.

  Lemma text_ok (p0 precision x q : Z) : 0 <= p0 <= 13 -> 0 <= q <= p0 -> -2000 <= x <= 2000 ->
    take (Z.to_nat p0) L = take (Z.to_nat q) L ++ replicate (Z.to_nat (p0 - q)) 0 ->
    let k := Z.max q precision in
    exists ex, count_digits 32 (Z.abs x) = Ok (Z.of_nat (length ex)) /\ format_decimal_it 32 (Z.abs x) (length ex) = Ok ex /\
    hex_text upper point k (d0 * 16 ^ k + FormatSpec.number 16 (take (Z.to_nat q) L ++ replicate (Z.to_nat (precision - q)) 0)) x
     ([48; if upper then 88 else 120; digit_char upper d0]
      ++ (if point || (0 <? q) || (q <? precision) then [46] else [])
      ++ take (Z.to_nat q) (drop 1 xdigits) ++ replicate (Z.to_nat (precision - q)) 48
      ++ [if upper then 80 else 112; if decide (x < 0) then 45 else 43] ++ ex).
  Proof using All.
    intros Hp0 Hq Hx Htk k.
    destruct (count_digits_ok 32 (Z.abs x) ltac:(by left)) as (c & Hc & Hcd); [lia|].
    assert (Hc1 : 1 <= c) by apply Hcd.
    destruct (format_decimal_it_ok 32 (Z.abs x) (Z.to_nat c) ltac:(by left) ltac:(lia)) as (ex & Hex & ds & Hds & Hlen & ->); [by rewrite Z2Nat.id by lia|].
    exists (digit_char false <$> ds). rewrite fmap_length, Hlen, Z2Nat.id by lia. split; [done|]. split; [done|].
    set (fp := take (Z.to_nat q) L ++ replicate (Z.to_nat (precision - q)) 0).
    assert (Hfp : hexes fp).
    { apply Forall_app. split; [by apply Forall_take|apply Forall_replicate; lia]. }
    assert (Hlf : Z.of_nat (length fp) = k).
    { unfold fp, k. rewrite app_length, take_length, replicate_length, Nat.min_l by lia. lia. }
    pose proof (number_bound 16 fp ltac:(lia) Hfp) as Hb. rewrite Hlf in Hb.
    exists [digit_char upper d0], fp, (digit_char false <$> ds).
    split.
    { exists [d0]. split; [done|]. split; [repeat constructor; lia|]. split; [|split; [done|]].
      - rewrite Z.div_add_l by lia. rewrite Z.div_small by done. cbn. lia.
      - by intros [= ->]. }
    split; [done|]. split; [done|]. split.
    { rewrite Z.add_comm, Z.mod_add by lia. by rewrite Z.mod_small. }
    split; [by apply numeral_digits|].
    cbn [app]. do 3 f_equal.
    assert (Hpt : (if point || (0 <? q) || (q <? precision) then [46] else []) = (if decide (0 < k \/ point = true) then [46] else [])).
    { unfold k. destruct point; [by rewrite decide_True by (by right)|]. cbn [orb].
      destruct (Z.ltb_spec 0 q), (Z.ltb_spec q precision); cbn [orb]; first [rewrite decide_True by (left; lia)|rewrite decide_False by (intros [|]; [lia|done])]; done. }
    rewrite Hpt. f_equal.
    assert (Hch : take (Z.to_nat q) (drop 1 xdigits) ++ replicate (Z.to_nat (precision - q)) 48 = digit_char upper <$> fp).
    { unfold fp, xdigits. rewrite fmap_app, fmap_replicate. f_equal.
      change (drop 1 ((digit_char upper <$> d0 :: L) ++ [48; 48])) with ((digit_char upper <$> L) ++ [48; 48]).
      rewrite take_app_le by (rewrite fmap_length; lia). symmetry. apply fmap_take. }
    by rewrite <- Hch, <- !app_assoc.
  Qed.
End text.

(** ** Rounding *)
Lemma nibble f s : 0 <= s <= 48 -> wrap 32 (Z.shiftr (Z.land f (wrap 64 (Z.shiftl 15 s))) s) = (f / 2 ^ s) mod 16.
Proof.
  intros Hs. assert (Hp : 0 < 2 ^ s <= 2 ^ 48) by (split; [apply pow2_pos; lia|apply Z.pow_le_mono_r; lia]).
  rewrite (wrap_id 64) by (rewrite Z.shiftl_mul_pow2 by lia; change (2 ^ 48) with 281474976710656 in Hp; lia).
  rewrite Z.shiftr_land, Z.shiftr_shiftl_l, Z.sub_diag, Z.shiftl_0_r, Z.shiftr_div_pow2 by lia.
  change 15 with (2 ^ 4 - 1). rewrite land_low by lia. change (2 ^ 4) with 16. apply wrap_id.
  pose proof (Z.mod_pos_bound (f / 2 ^ s) 16). lia.
Qed.
Lemma cleared x k : 0 <= x < 2 ^ 64 -> 0 <= k <= 60 ->
  Z.land x (Z.lxor (wrap 64 (2 ^ k - 1)) (Z.ones 64)) = x / 2 ^ k * 2 ^ k.
Proof.
  intros Hx Hk. assert (Hp : 0 < 2 ^ k <= 2 ^ 60) by (split; [apply pow2_pos; lia|apply Z.pow_le_mono_r; lia]).
  rewrite wrap_id by (change (2 ^ 60) with 1152921504606846976 in Hp; lia).
  rewrite <- (Z.shiftl_mul_pow2 (x / 2 ^ k)), <- Z.shiftr_div_pow2 by lia.
  replace (2 ^ k - 1) with (Z.ones k) by (rewrite Z.ones_equiv; lia).
  apply Z.bits_inj'. intros i Hi. rewrite Z.land_spec, Z.lxor_spec.
  destruct (decide (i < k)) as [Hlt|Hge].
  - rewrite !Z.ones_spec_low by lia. rewrite Z.shiftl_spec_low by lia. apply andb_false_r.
  - rewrite (Z.ones_spec_high k) by lia. rewrite Z.shiftl_spec, Z.shiftr_spec by lia. replace (i - k + k) with i by lia.
    destruct (decide (i < 64)) as [Hi2|Hi2].
    + rewrite Z.ones_spec_low by lia. apply andb_true_r.
    + rewrite Z.ones_spec_high by lia. rewrite andb_false_r. symmetry.
      destruct (decide (x = 0)) as [->|Hx0]; [apply Z.bits_0|]. apply Z.bits_above_log2; [lia|].
      apply Z.log2_lt_pow2; [lia|]. eapply Z.lt_le_trans; [apply Hx|]. apply Z.pow_le_mono_r; lia.
Qed.
(** The next digit decides. *)
Lemma round_half f B : 0 <= f -> 0 < B ->
  let n := if decide (8 <= (f / B) mod 16) then f / (16 * B) + 1 else f / (16 * B) in
  (2 * n - 1) * (16 * B) <= 2 * f < (2 * n + 1) * (16 * B).
Proof.
  intros Hf HB n. set (B2 := 16 * B) in *.
  pose proof (Z.div_mod f B ltac:(lia)) as H1. pose proof (Z.mod_pos_bound f B HB) as H2.
  pose proof (Z.div_mod (f / B) 16 ltac:(lia)) as H3. pose proof (Z.mod_pos_bound (f / B) 16 ltac:(lia)) as H4.
  rewrite Z.div_div in H3 by lia. rewrite (Z.mul_comm B 16) in H3. fold B2 in H3.
  unfold n. set (d := (f / B) mod 16) in *. set (Q := f / B2) in *. set (r := f mod B) in *.
  assert (Hfe : f = Q * B2 + d * B + r) by (unfold B2; nia).
  destruct (decide (8 <= d)); unfold B2 in *; nia.
Qed.

Local Open Scope Q_scope.
Lemma nearest_up_div a f B n : (0 < B)%Z -> ((2 * n - 1) * B <= 2 * f < (2 * n + 1) * B)%Z -> a * inject_Z B == inject_Z f -> nearest_up a n.
Proof.
  intros HB [H1 H2] Ha. assert (HBq : 0 < inject_Z B) by (change 0 with (inject_Z 0); rewrite <- Zlt_Qlt; lia).
  rewrite Zle_Qle in H1. rewrite Zlt_Qlt in H2.
  rewrite !inject_Z_mult in H1, H2. unfold Z.sub in H1. rewrite !inject_Z_plus in H1, H2. rewrite !inject_Z_mult in H1, H2.
  change (inject_Z (-(1))) with (-(1)) in H1. change (inject_Z 1) with 1 in H2. change (inject_Z 2) with 2 in H1, H2.
  set (b := inject_Z B) in *. set (m := inject_Z n) in *. split; fold m.
  - apply (Qmult_le_r _ _ (2 * b)); [lra|]. rewrite <- Ha in H1. lra.
  - apply (Qmult_lt_r _ _ (2 * b)); [lra|]. rewrite <- Ha in H2. lra.
Qed.
Lemma nearest_up_exact a n : a == inject_Z n -> nearest_up a n.
Proof. intros Ha. split; rewrite Ha; lra. Qed.

Definition hex_of (v : Q) (precision q n x : Z) : Prop :=
  binary_exponent v x /\
  ((0 <= precision)%Z -> q = precision /\ nearest_up (v * p2 (4 * q - x)) n) /\
  ((precision < 0)%Z -> (0 <= q <= 13)%Z /\ v * p2 (4 * q - x) == inject_Z n /\ (q = 0%Z \/ (n mod 16 <> 0)%Z)).
Local Open Scope Z_scope.

Lemma hexfloat_ok br f e closer precision fs v :
  fp_assign float_info_double br = (f, e, closer) -> 0 <= f < 2 ^ 53 -> -1074 <= e <= 971 -> (-1074 < e -> 2 ^ 52 <= f) ->
  (v == inject_Z f * p2 e)%Q ->
  exists q n x text, format_hexfloat br precision fs = Ok text /\ hex_text (fs_upper fs) (fs_showpoint fs) q n x text /\ hex_of v precision q n x.
Proof.
  intros Hfp Hf He Hnorm Hv. change (2 ^ 53) with 9007199254740992 in Hf. change (2 ^ 52) with 4503599627370496 in Hnorm.
  set (x := e + 52).
  assert (Hbe : binary_exponent v x).
  { unfold binary_exponent, x. rewrite Hv.
    assert (H1 : (inject_Z f * p2 e < p2 (e + 52 + 1))%Q).
    { replace (e + 52 + 1) with (53 + e) by lia. rewrite p2_add, (p2_Z 53) by lia. apply Qmult_lt_r; [apply p2_pos|].
      rewrite <- Zlt_Qlt. change (2 ^ 53) with 9007199254740992. lia. }
    split; [done|]. rewrite Z.add_comm, p2_add, p2_Z by lia. change (2 ^ 52) with 4503599627370496.
    destruct (decide (4503599627370496 <= f)) as [Hge|Hlt].
    - left. split; [|lia]. apply Qmult_le_r; [apply p2_pos|]. rewrite <- Zle_Qle. lia.
    - right. split; [|lia]. apply Qmult_lt_r; [apply p2_pos|]. rewrite <- Zlt_Qlt. lia. }
  assert (Hsc : forall q, (v * p2 (4 * q - x) == inject_Z f * p2 (4 * q - 52))%Q).
  { intros q. rewrite Hv. unfold x. replace (4 * q - 52) with (e + (4 * q - (e + 52))) by lia. rewrite (p2_add e). ring. }
  assert (Hp16 : forall q, 0 <= q -> (p2 (4 * q) == inject_Z (16 ^ q))%Q).
  { intros q Hq. rewrite p2_Z by lia. rewrite Z.pow_mul_r by lia. done. }
  assert (Hsc1 : forall q, 0 <= q <= 13 -> (v * p2 (4 * q - x) * inject_Z (16 ^ (13 - q)) == inject_Z f)%Q).
  { intros q Hq. rewrite Hsc, <- (Hp16 (13 - q)) by lia.
    rewrite <- Qmult_assoc, <- p2_add. replace (4 * q - 52 + 4 * (13 - q)) with 0 by lia. cbn. ring. }
  assert (Hsc2 : forall q, 13 <= q -> (v * p2 (4 * q - x) == inject_Z (f * 16 ^ (q - 13)))%Q).
  { intros q Hq. rewrite Hsc, inject_Z_mult, <- (Hp16 (q - 13)) by lia. by replace (4 * q - 52) with (4 * (q - 13)) by lia. }
  set (rnd := bool_decide (0 <= precision < 13)).
  set (p0 := if rnd then precision else 13).
  set (B := 16 ^ (12 - p0)).
  set (f' := if rnd then (if decide (8 <= (f / B) mod 16) then (f / (16 * B) + 1) * (16 * B) else f) else f).
  assert (Hp0 : 0 <= p0 <= 13).
  { unfold p0, rnd. destruct (bool_decide_reflect (0 <= precision < 13)); lia. }
  assert (HB : rnd = true -> 0 < B <= 16 ^ 12 /\ 16 * B = 16 ^ (13 - p0)).
  { intros Hr. assert (Hp : 0 <= p0 < 13) by (unfold p0; rewrite Hr; by apply bool_decide_eq_true_1 in Hr).
    unfold B. split; [split; [apply p16_pos; lia|apply Z.pow_le_mono_r; lia]|].
    replace (13 - p0) with (1 + (12 - p0)) by lia. rewrite Z.pow_add_r by lia. done. }
  assert (Hf' : 0 <= f' < 16 ^ 14 /\ f' / 16 ^ 13 <= 15).
  { assert (0 <= f' <= f + 16 ^ 13).
    { unfold f'. destruct rnd eqn:Hr; [|lia]. destruct (HB eq_refl) as [HB1 _].
      destruct (decide (8 <= (f / B) mod 16)); [|lia].
      pose proof (Z.mul_div_le f (16 * B) ltac:(lia)). pose proof (Z.div_pos f (16 * B) ltac:(lia) ltac:(lia)). 
      change (16 ^ 12) with 281474976710656 in HB1. change (16 ^ 13) with 4503599627370496. nia. }
    change (16 ^ 13) with 4503599627370496 in *. change (16 ^ 14) with 72057594037927936. split; [lia|].
    apply Z.lt_succ_r. apply Z.div_lt_upper_bound; lia. }
  destruct Hf' as [Hf' Hd15].
  destruct (padded_hex 14 f' (fs_upper fs) ltac:(lia) Hf') as (L14 & HL14 & Hl14 & Hn14 & Hrun).
  destruct (Hrun 2%nat) as (e2 & Hru). clear Hrun.
  destruct L14 as [|d0 L]; [done|]. assert (HlL : length L = 13%nat) by (cbn in Hl14; lia).
  inversion HL14 as [|? ? Hd0 HL]; subst.
  rewrite number_cons, HlL in Hn14. change (Z.of_nat 13) with 13 in Hn14.
  destruct (strip_ok (fs_upper fs) d0 L Hd0 HL HlL p0 Hp0) as (q & Hq & Hloop & Htk & Hlast).
  destruct (text_ok (fs_upper fs) (fs_showpoint fs) d0 L Hd0 HL HlL p0 precision x q Hp0 Hq ltac:(unfold x; lia) Htk) as (ex & Hcd & Hfd & Htext).
  set (k := Z.max q precision) in *.
  set (n := d0 * 16 ^ k + FormatSpec.number 16 (take (Z.to_nat q) L ++ replicate (Z.to_nat (precision - q)) 0)) in *.
  eexists k, n, x, _. split; [|split; [exact Htext|]].
  - unfold format_hexfloat. rewrite Hfp. change (num_significand_bits float_info_double) with 52. cbv zeta. fold x.
    change ((52 + 1 + 3) / 4 - 1) with 13. change (13 * 4) with 52.
    assert (Hlead : wrap 32 (Z.shiftr (Z.land f (Z.shiftl 15 52)) 52) = f / 4503599627370496).
    { rewrite Z.shiftr_land, Z.shiftr_shiftl_l, Z.sub_diag, Z.shiftl_0_r, Z.shiftr_div_pow2 by lia.
      change 15 with (2 ^ 4 - 1). rewrite land_low by lia. change (2 ^ 52) with 4503599627370496.
      assert (0 <= f / 4503599627370496 < 2) by (split; [apply Z.div_pos; lia|apply Z.div_lt_upper_bound; lia]).
      rewrite Z.mod_small by (change (2 ^ 4) with 16; lia). apply wrap_id. lia. }
    rewrite Hlead. rewrite (decide_False (P := f / 4503599627370496 > 1));
      [|assert (f / 4503599627370496 < 2) by (apply Z.div_lt_upper_bound; lia); lia].
    assert (Hround : (if decide (0 <= precision < 13) then
      let* mask := shl 64 15 ((13 - precision - 1) * 4) in
      let* f := if decide (8 <= wrap 32 (Z.shiftr (Z.land f mask) ((13 - precision - 1) * 4))) then
          let* inc := shl 64 1 ((13 - precision - 1) * 4 + 4) in
          Ok (Z.land (wrap 64 (f + inc)) (Z.lxor (wrap 64 (inc - 1)) (Z.ones 64)))
        else Ok f in
      Ok (f, precision)
    else Ok (f, 13)) = Ok (f', p0)).
    { unfold f', p0, rnd. destruct (decide (0 <= precision < 13)) as [Hp|Hp]; [|by rewrite bool_decide_eq_false_2].
      rewrite bool_decide_eq_true_2 by done. unfold shl at 1. replace ((0 <=? (13 - precision - 1) * 4) && ((13 - precision - 1) * 4 <? 64)) with true by lia.
      cbn [bind]. rewrite nibble by lia.
      assert (Hr : rnd = true) by (by apply bool_decide_eq_true_2). destruct (HB Hr) as [HB1 HB2].
      assert (Hp0e : p0 = precision) by (unfold p0; by rewrite Hr).
      assert (HBe : 2 ^ ((13 - precision - 1) * 4) = B).
      { unfold B. rewrite Hp0e. replace ((13 - precision - 1) * 4) with (4 * (12 - precision)) by lia. by rewrite Z.pow_mul_r by lia. }
      rewrite HBe. destruct (decide (8 <= (f / B) mod 16)); [|done].
      unfold shl. replace ((0 <=? (13 - precision - 1) * 4 + 4) && ((13 - precision - 1) * 4 + 4 <? 64)) with true by lia.
      cbn [bind]. rewrite Z.shiftl_1_l. set (s := (13 - precision - 1) * 4 + 4).
      assert (Hinc : 2 ^ s = 16 * B) by (unfold s; rewrite Z.pow_add_r, HBe by lia; lia).
      rewrite Hinc. change (16 ^ 12) with 281474976710656 in HB1.
      rewrite (wrap_id 64 (16 * B)) by lia. rewrite (wrap_id 64 (f + 16 * B)) by lia.
      rewrite <- Hinc. rewrite cleared by (rewrite ?Hinc; unfold s; lia). rewrite Hinc.
      cbn [bind]. do 2 f_equal. replace (f + 16 * B) with (f + 1 * (16 * B)) by lia. by rewrite Z.div_add by lia. }
    rewrite Hround. cbn [bind]. change (replicate 16 (Some 48)) with (replicate (14 + 2) (Some 48)).
    change (Z.to_nat ((52 + 1 + 3) / 4)) with 14%nat. rewrite Hru. cbn [bind]. rewrite read_all_some. cbn [bind].
    change (replicate 2 48) with [48; 48]. rewrite Hloop. cbn [bind].
    change (get ((digit_char (fs_upper fs) <$> d0 :: L) ++ [48; 48]) 0) with (@Ok Z (digit_char (fs_upper fs) d0)). cbn [bind].
    assert (Hsg : (if decide (x < 0) then (45, - x) else (43, x)) = (if decide (x < 0) then 45 else 43, Z.abs x))
      by (destruct (decide (x < 0)); f_equal; lia).
    rewrite Hsg. rewrite Hcd. cbn [bind]. rewrite Nat2Z.id, Hfd. cbn [bind]. reflexivity.
  - assert (Hall : FormatSpec.number 16 (take (Z.to_nat p0) L) = FormatSpec.number 16 (take (Z.to_nat q) L) * 16 ^ (p0 - q)).
    { rewrite Htk, number_app, number_digits_zero, replicate_length, Z2Nat.id by lia. lia. }
    assert (Hdiv : FormatSpec.number 16 (take (Z.to_nat p0) L) = FormatSpec.number 16 L / 16 ^ (13 - p0)).
    { rewrite number_take by (done || lia). rewrite HlL. do 2 f_equal. lia. }
    assert (Hfull : f' / 16 ^ (13 - p0) = d0 * 16 ^ p0 + FormatSpec.number 16 (take (Z.to_nat p0) L)).
    { rewrite Hdiv, <- Hn14. replace (16 ^ 13) with (16 ^ p0 * 16 ^ (13 - p0)) by (rewrite <- Z.pow_add_r by lia; f_equal; lia).
      pose proof (p16_pos (13 - p0) ltac:(lia)). rewrite Z.mul_assoc. apply Z.div_add_l. lia. }
    split; [done|]. split.
    + intros Hpr. assert (Hk : k = precision).
      { unfold k. assert (q <= precision); [|lia]. unfold p0, rnd in Hq. destruct (bool_decide_reflect (0 <= precision < 13)); lia. }
      split; [done|]. rewrite Hk in *.
      assert (Hn : n = d0 * 16 ^ precision + FormatSpec.number 16 (take (Z.to_nat p0) L) * 16 ^ (precision - p0)).
      { unfold n. rewrite Hk. f_equal. rewrite number_app, number_digits_zero, replicate_length, Z2Nat.id by lia. rewrite Hall.
        assert (p0 <= precision) by (unfold p0, rnd; destruct (bool_decide_reflect (0 <= precision < 13)); lia).
        rewrite Z.add_0_r, <- Z.mul_assoc, <- Z.pow_add_r by lia. do 2 f_equal. lia. }
      destruct rnd eqn:Hr.
      * assert (Hp0e : p0 = precision) by done. assert (Hp : 0 <= precision < 13) by (by apply bool_decide_eq_true_1 in Hr).
        destruct (HB eq_refl) as [HB1 HB2].
        apply (nearest_up_div _ f (16 * B)); [lia| |rewrite HB2, Hp0e; apply Hsc1; lia].
        pose proof (round_half f B ltac:(lia) ltac:(lia)) as Hrh. cbv zeta in Hrh.
        assert (Hne : n = (if decide (8 <= (f / B) mod 16) then f / (16 * B) + 1 else f / (16 * B))).
        { rewrite Hn, <- Hp0e, Z.sub_diag, Z.mul_1_r, <- Hfull, <- HB2. unfold f'.
          destruct (decide (8 <= (f / B) mod 16)); [|done]. apply Z.div_mul. lia. }
        by rewrite Hne.
      * assert (Hp : 13 <= precision) by (apply bool_decide_eq_false_1 in Hr; lia).
        apply nearest_up_exact. rewrite Hsc2 by lia. apply inject_Z_injective.
        assert (Hp0e : p0 = 13) by done. assert (Hfe : f' = f) by done.
        rewrite Hn, Hp0e. rewrite Hp0e, Hfe, Z.sub_diag, Z.div_1_r in Hfull. rewrite Hfull.
        replace precision with (13 + (precision - 13)) at 2 by lia. rewrite (Z.pow_add_r 16 13) by lia. lia.
    + intros Hpr. assert (Hr : rnd = false) by (apply bool_decide_eq_false_2; lia).
      assert (Hk : k = q) by (unfold k; lia).
      assert (Hp0e : p0 = 13) by (unfold p0; by rewrite Hr). assert (Hfe : f' = f) by (unfold f'; by rewrite Hr).
      assert (Hn : n = d0 * 16 ^ q + FormatSpec.number 16 (take (Z.to_nat q) L)).
      { unfold n. rewrite Hk. replace (Z.to_nat (precision - q)) with 0%nat by lia. cbn [replicate]. by rewrite app_nil_r. }
      rewrite Hk. split; [lia|]. split.
      * assert (Hfn : f = n * 16 ^ (13 - q)).
        { rewrite Hn. rewrite Hp0e, Hfe, Z.sub_diag, Z.div_1_r, <- Hp0e, Hall, Hp0e in Hfull. rewrite Hfull.
          replace (16 ^ 13) with (16 ^ q * 16 ^ (13 - q)) by (rewrite <- Z.pow_add_r by lia; f_equal; lia). ring. }
        pose proof (Hsc1 q ltac:(lia)) as H. rewrite Hfn, inject_Z_mult in H at 1.
        apply Qmult_inj_r in H; [done|]. pose proof (p16_pos (13 - q) ltac:(lia)).
        change 0%Q with (inject_Z 0). rewrite inject_Z_injective. lia.
      * destruct Hlast as [Hz|(d & Hd & Hdn)]; [by left|].
        destruct (decide (q = 0)) as [|Hq0]; [by left|]. right.
        assert (Hdr : 0 <= d < 16) by (exact (Forall_lookup_1 _ _ _ _ HL Hd)).
        rewrite Hn. replace (Z.to_nat q) with (S (Z.to_nat (q - 1))) by lia. rewrite (take_S_r L _ d) by done.
        rewrite number_snoc. replace q with (q - 1 + 1) at 1 by lia. rewrite Z.pow_add_r by lia. change (16 ^ 1) with 16.
        replace (d0 * (16 ^ (q - 1) * 16) + (FormatSpec.number 16 (take (Z.to_nat (q - 1)) L) * 16 + d))
          with (d + (d0 * 16 ^ (q - 1) + FormatSpec.number 16 (take (Z.to_nat (q - 1)) L)) * 16) by ring.
        rewrite Z.mod_add by lia. rewrite Z.mod_small by lia. done.
Qed.

Lemma format_hexfloat_same br p fs : format_hexfloat br p fs = format_hexfloat br p (FSpecs 0 FloatLayout.Hex SNone (fs_upper fs) false false (fs_showpoint fs)).
Proof. done. Qed.
Lemma hex_body E pt I F m u f p : kind_of I F -> 0 <= m < (emax F - emin F + 2) * 2 ^ (prec F - 1) ->
  exists q n x text, hex_text u (f_alternate f) q n x text /\ hex_of (value (of_bits F m)) p q n x /\
    forall out sp sg, body_specs f p sp ->
      float_body E pt I out m (FHex u) sp (set_fs_sign (parse_float_type_spec (FHex u) sp) sg) = Ok (out ++ float_in sp (sign_chars sg ++ text)).
Proof.
  intros HIF Hm. set (v := value (of_bits F m)).
  assert (Hcore : exists f e closer, fp_assign float_info_double (as_double I m) = (f, e, closer) /\ 0 <= f < 2 ^ 53 /\ -1074 <= e <= 971 /\
    (-1074 < e -> 2 ^ 52 <= f) /\ (v == inject_Z f * p2 e)%Q).
  { destruct (as_double_zero I F m HIF Hm) as [[Hz Hzd]|[Hfin Hnz]].
    - rewrite Hzd. exists 0, (-1074), false. split_and!; try done; try lia. unfold v. rewrite Hz.
      destruct HIF as [[_ ->]|[_ ->]]; done.
    - assert (Hd : finite_bits binary64 (as_double I m) /\ (value (of_bits binary64 (as_double I m)) == v)%Q).
      { unfold v. destruct HIF as [[-> ->]|[-> ->]]; unfold as_double; [done|].
        change (carrier_bits float_info_float =? 32) with true. by apply widen_ok. }
      destruct Hd as [Hfd Hvd].
      destruct (fp_assign_ok float_info_double binary64 (as_double I m)) as (a & e & closer & H1 & H2 & H3 & H4 & H5); try done.
      cbn [binary64 prec emin emax] in *.
      change (num_significand_bits float_info_double) with 52 in H5.
      exists a, e, closer. split_and!; try done; try lia. by rewrite <- Hvd. }
  destruct Hcore as (a & e & closer & Hfp & Ha & He & Hnorm & Hv).
  destruct (hexfloat_ok (as_double I m) a e closer p (FSpecs 0 FloatLayout.Hex SNone u false false (f_alternate f)) v Hfp Ha He Hnorm Hv)
    as (q & n & x & text & Hrun & Htext & Hof).
  exists q, n, x, text. split; [done|]. split; [done|]. intros out sp sg (Hw & Hp & Halt & Hloc).
  assert (Hfs : set_fs_sign (parse_float_type_spec (FHex u) sp) sg = FSpecs 0 FloatLayout.Hex sg u false false (f_alternate f)).
  { unfold parse_float_type_spec, set_fs_sign. cbn. by rewrite Halt, Hloc, orb_false_r. }
  rewrite Hfs. unfold float_body. cbn [fs_format fs_sign]. rewrite decide_True by done.
  rewrite format_hexfloat_same. cbn [fs_upper fs_showpoint]. rewrite Hp, Hrun. cbn [bind].
  unfold float_in. apply write_padded_ok; [done|lia|done].
Qed.

Lemma exp_throws E pt I F out br u f w wr pc : kind_of I F -> 0 <= br < 2 ^ carrier_bits I ->
  br mod 2 ^ (carrier_bits I - 1) < (emax F - emin F + 2) * 2 ^ (prec F - 1) ->
  write_float_specs E pt I out br (FExp u) (specs_of f w max_int wr pc) = Throw.
Proof.
  intros HIF Hbr Hm. unfold write_float_specs.
  destruct (sign_bit_ok I F br HIF Hbr) as [-> ->]. cbv zeta.
  assert (Hmr : 0 <= br mod 2 ^ (carrier_bits I - 1) < 2 ^ (carrier_bits I - 1)).
  { apply Z.mod_pos_bound. destruct HIF as [[-> _]|[-> _]]; done. }
  pose proof (finite_test I F _ HIF Hmr) as Hfin.
  rewrite (decide_False (P := Z.land _ (exponent_mask I) = exponent_mask I)) by (intros H%Hfin; lia).
  destruct (decide (al _ = _ /\ _)); [|done].
  by destruct (decide (width (specs_of f w max_int wr pc) <> 0)).
Qed.
