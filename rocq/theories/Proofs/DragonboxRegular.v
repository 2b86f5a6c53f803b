(** [regular_case] computes what the decision of DragonboxCore says, for any cache entry whose products have the
    right integer parts and pass the integer test rightly. *)
From Verif Require Import Base.Cpp Model.Dragonbox Proofs.DragonboxArith Proofs.DragonboxCore.
Set Default Proof Using "Type".
Local Open Scope Z_scope.

Lemma Even_mod n : Z.Even n <-> n mod 2 = 0.
Proof.
  rewrite Z.mod_eq by lia. split.
  - intros [m ->]. rewrite Z.mul_comm, Z.div_mul by lia. lia.
  - intros H. exists (n / 2). lia.
Qed.
Lemma odd_lxor a b : Z.odd (Z.lxor a b) = xorb (Z.odd a) (Z.odd b).
Proof. rewrite <- !Z.bit0_odd. apply Z.lxor_spec. Qed.

(** Whether the bits below the point are all zero, as compute_mul and compute_mul_parity test it. *)
Lemma int_test W beta x : 0 <= beta <= W ->
  ((x / 2 ^ (W - beta)) mod 2 ^ W =? 0) = (x mod 2 ^ (2 * W - beta) * 2 ^ W <? 2 ^ (2 * W - beta)).
Proof.
  intros Hb.
  assert (HP : 0 < 2 ^ (W - beta)) by (apply pow2_pos; lia). assert (HW : 0 < 2 ^ W) by (apply pow2_pos; lia).
  assert (HB : 2 ^ (2 * W - beta) = 2 ^ (W - beta) * 2 ^ W) by (rewrite <- Z.pow_add_r by lia; f_equal; lia).
  rewrite HB, <- mod_div by done.
  pose proof (Z.mod_pos_bound x (2 ^ (W - beta) * 2 ^ W) ltac:(nia)) as Hm.
  set (y := x mod (2 ^ (W - beta) * 2 ^ W)) in *. clearbody y.
  apply eq_true_iff_eq. rewrite Z.eqb_eq, Z.ltb_lt. rewrite Z.div_small_iff by lia.
  rewrite <- Z.mul_lt_mono_pos_r by done. lia.
Qed.

Section regular.
  Context (I : float_info) {E : Type} (A : cache_accessor E) (cval : E -> Z) (cok : E -> Prop) (nmax : Z).
  Context (HA : accessor_ok I A cval cok nmax).
  Let W := carrier_bits I.
  Let S := small_divisor I.
  Context (HW : 32 <= W) (HS : S = 10 \/ S = 100) (HSk : S = 10 ^ kappa I) (Hk : 1 <= kappa I).
  Context (Hbig : big_divisor I = 10 * S) (Hnmax : nmax < 2 ^ W).
  Context (f e lg l xn xd : Z) (ca : E).
  Let c := cval ca.
  Let beta := e + l.
  Let B := 2 ^ (2 * W - beta).
  Context (Hlg : floor_log10_pow2 e = Ok lg) (Hca : get_cached_power A (- (lg - kappa I)) = Ok ca).
  Context (Hl : floor_log2_pow10 (- (lg - kappa I)) = Ok l) (Hbeta : 1 <= beta <= 15) (Hcok : cok ca).
  Context (Hxn : 0 < xn) (Hxd : 0 < xd) (Hf : 1 <= f) (Hfw : (2 * f + 1) * 2 ^ beta < 2 ^ W).
  Context (Hfl : forall n, 0 < n <= 2 * f + 1 -> n * c / B = fl xn xd n).
  Definition itest (n : Z) : bool := (n * c) mod B * 2 ^ W <? B.
  Context (Hz : itest (2 * f + 1) = true <-> (xd | (2 * f + 1) * xn)).
  Context (Hx : itest (2 * f - 1) = true <-> (xd | (2 * f - 1) * xn)).
  Context (Hy : fl xn xd (2 * f) mod S = S / 2 -> itest (2 * f) = true <-> (xd | 2 * f * xn)).
  Context (Hdelta : S <= fl xn xd 2 < 10 * S).
  Context (Hzi : fl xn xd (2 * f + 1) <= nmax).

  Notation fl := (fl xn xd).

  Lemma S_facts : 2 <= S /\ S mod 2 = 0.
  Proof using HS. destruct HS as [H|H]; rewrite H; done. Qed.

  Lemma small_case_ok D' r' :
    fl (2 * f + 1) = D' * (10 * S) + r' -> 0 <= D' -> fl 2 <= r' <= 10 * S ->
    small_divisor_case I A ca beta (lg - kappa I) (fl 2) (2 * f) D' r' =
      Ok (rounded f xn xd S D' r' (itest (2 * f)), lg).
  Proof using HA HW HS HSk Hk Hbig Hnmax Hlg Hca Hl Hbeta Hcok Hxn Hxd Hf Hfw Hfl Hz Hx Hy Hdelta Hzi.
    intros Hsplit HD Hr. destruct S_facts as [HS2 HSe].
    assert (HWp : 0 < 2 ^ W) by (apply pow2_pos; lia).
    assert (H32 : 2 ^ 32 <= 2 ^ W) by (apply Z.pow_le_mono_r; lia).
    assert (H2b : 2 ^ 1 <= 2 ^ beta) by (apply Z.pow_le_mono_r; lia). change (2 ^ 1) with 2 in H2b.
    assert (Htw : 0 <= 2 * f < 2 ^ carrier_bits I) by (fold W; nia).
    pose proof (rounded_near f xn xd S Hf Hxn Hxd HS2 HSe Hdelta D' r' Hsplit (itest (2 * f)) Hy) as Hnear.
    pose proof (near_within f xn xd S Hf Hxn Hxd HS2 HSe Hdelta _ Hnear) as Hin.
    pose proof (within_upper f xn xd S Hf Hxn Hxd HS2 HSe Hdelta _ Hin) as Hup.
    pose proof (within_pos f xn xd Hf Hxn Hxd _ Hin) as Hlow.
    assert (Hs : squot xn xd S D' r' - 1 <= rounded f xn xd S D' r' (itest (2 * f)) <= squot xn xd S D' r').
    { unfold rounded. repeat case_match; lia. }
    set (R := rounded _ _ _ _ _ _ _) in *.
    assert (HR : 0 < R) by (apply (Z.mul_pos_cancel_r R S); lia).
    assert (HR2 : R + 1 < 2 ^ W).
    { assert (R * 2 <= R * S) by (apply Z.mul_le_mono_nonneg_l; lia). lia. }
    pose proof (Z.div_mod (fl 2) 2 ltac:(lia)) as Hh. pose proof (Z.mod_pos_bound (fl 2) 2 ltac:(lia)).
    assert (HSh : S = 2 * (S / 2)) by (pose proof (Z.div_mod S 2); lia).
    unfold small_divisor_case. fold S W.
    assert (Hdist : wrap 32 (r' - fl 2 / 2 + S / 2) = sdist xn xd S r').
    { unfold sdist. apply wrap_id. lia. }
    rewrite Hdist.
    assert (Hd0 : 0 <= sdist xn xd S r' <= 10 * S) by (unfold sdist; lia).
    assert (HD10 : D' * 10 < 2 ^ W).
    { assert (D' * 10 * 1 <= D' * 10 * S) by (apply Z.mul_le_mono_nonneg_l; lia). lia. }
    rewrite (wrap_id W (D' * 10)) by lia.
    rewrite odd_land, odd_lxor.
    assert (Hpar : xorb (Z.odd (sdist xn xd S r')) (Z.odd (S / 2)) = Z.odd (r' - fl 2 / 2)).
    { unfold sdist. rewrite Z.odd_add. by destruct (Z.odd (S / 2)), (Z.odd (r' - fl 2 / 2)). }
    replace (xorb (Z.odd (r' - fl 2 / 2 + S / 2)) (Z.odd (S / 2)))
      with (xorb (Z.odd (sdist xn xd S r')) (Z.odd (S / 2))) by done.
    rewrite Hpar. rewrite check_div_ok by (try done; lia). cbn [bind].
    change (D' * 10 + sdist xn xd S r' / S) with (squot xn xd S D' r').
    rewrite (wrap_id W (squot xn xd S D' r')) by lia.
    unfold rounded in R. 
    replace (lg - kappa I + kappa I) with lg by lia.
    destruct (sdist xn xd S r' mod S =? 0); cbn [negb] in *; [|done].
    rewrite (parity_ok _ _ _ _ _ HA) by (done || lia).
    cbn [bind]. fold W c B. rewrite Hfl by lia.
    replace ((2 * f * c / 2 ^ (W - beta)) mod 2 ^ W =? 0) with (itest (2 * f)).
    2: { unfold itest, B. symmetry. apply int_test. lia. }
    fold (squot xn xd S D' r') in R.
    destruct (negb (Bool.eqb (Z.odd (fl (2 * f))) (Z.odd (r' - fl 2 / 2)))); [by rewrite (wrap_id W) by lia|].
    destruct (itest (2 * f) && negb (squot xn xd S D' r' mod 2 =? 0)); [by rewrite (wrap_id W) by lia|done].
  Qed.

  (** What the algorithm ends with: [s * 10^t] in its units. *)
  Definition found (s t : Z) : Prop :=
    0 < s /\ kappa I <= t /\ within f xn xd (s * 10 ^ t) /\
    (forall m, ~ within f xn xd (m * 10 ^ (t + 1))) /\
    (forall m, within f xn xd (m * 10 ^ t) -> off f xn xd (s * 10 ^ t) <= off f xn xd (m * 10 ^ t)).

  Lemma small_found D' r' : ~ bigcase f xn xd S -> fl (2 * f + 1) = D' * (10 * S) + r' ->
    found (rounded f xn xd S D' r' (itest (2 * f))) (kappa I).
  Proof using HA HW HS HSk Hk Hbig Hnmax Hlg Hca Hl Hbeta Hcok Hxn Hxd Hf Hfw Hfl Hz Hx Hy Hdelta Hzi.
    intros Hnb Hsplit. destruct S_facts as [HS2 HSe].
    pose proof (rounded_near f xn xd S Hf Hxn Hxd HS2 HSe Hdelta D' r' Hsplit (itest (2 * f)) Hy) as Hnear.
    set (R := rounded _ _ _ _ _ _ _) in *.
    pose proof (near_within f xn xd S Hf Hxn Hxd HS2 HSe Hdelta _ Hnear) as Hin.
    pose proof (within_pos f xn xd Hf Hxn Hxd _ Hin) as Hlow.
    unfold found. rewrite <- HSk. split_and!.
    - apply (Z.mul_pos_cancel_r R S); lia.
    - lia.
    - done.
    - intros m. rewrite Z.pow_add_r, <- HSk, (Z.mul_comm S) by lia. change (10 ^ 1) with 10.
      by apply big_none.
    - intros m _. by apply near_closest.
  Qed.

  Lemma big_found n' t : bigcase f xn xd S ->
    0 <= t -> big_quot f xn xd S = n' * 10 ^ t -> ~ (10 | n') -> found n' (kappa I + 1 + t).
  Proof using HA HW HS HSk Hk Hbig Hnmax Hlg Hca Hl Hbeta Hcok Hxn Hxd Hf Hfw Hfl Hz Hx Hy Hdelta Hzi.
    intros Hb Ht Hq H10. destruct S_facts as [HS2 HSe].
    pose proof (proj2 (within_big f xn xd S Hf Hxn Hxd HS2 HSe Hdelta) Hb) as Hin.
    pose proof (within_pos f xn xd Hf Hxn Hxd _ Hin) as Hlow.
    assert (H10t : 0 < 10 ^ t) by (apply Z.pow_pos_nonneg; lia).
    assert (Hpow : 10 ^ (kappa I + 1 + t) = 10 ^ t * (10 * S)).
    { rewrite !Z.pow_add_r, <- HSk by lia. change (10 ^ 1) with 10. ring. }
    assert (Heq : n' * 10 ^ (kappa I + 1 + t) = big_quot f xn xd S * (10 * S)).
    { rewrite Hpow, Hq. ring. }
    unfold found. split_and!.
    - assert (0 < big_quot f xn xd S) by (apply (Z.mul_pos_cancel_r _ (10 * S)); lia).
      rewrite Hq in H. by apply (Z.mul_pos_cancel_r n' (10 ^ t)).
    - lia.
    - by rewrite Heq.
    - intros m Hm. rewrite Z.pow_add_r, Hpow in Hm by lia. change (10 ^ 1) with 10 in Hm.
      replace (m * (10 ^ t * (10 * S) * 10)) with (m * 10 * 10 ^ t * (10 * S)) in Hm by ring.
      pose proof (within_only f xn xd S Hf Hxn Hxd HS2 HSe Hdelta _ Hm) as Heq2.
      rewrite Hq in Heq2. apply H10. exists m. apply (Z.mul_cancel_r _ _ (10 ^ t)); lia.
    - intros m Hm. rewrite Hpow in Hm.
      replace (m * (10 ^ t * (10 * S))) with (m * 10 ^ t * (10 * S)) in Hm by ring.
      pose proof (within_only f xn xd S Hf Hxn Hxd HS2 HSe Hdelta _ Hm) as Heq2.
      rewrite Hq in Heq2. assert (m = n') as -> by (apply (Z.mul_cancel_r _ _ (10 ^ t)); lia). done.
  Qed.

  Lemma regular_case_ok : exists s t, regular_case I A f e = Ok (s, lg - kappa I + t) /\ found s t.
  Proof using HA HW HS HSk Hk Hbig Hnmax Hlg Hca Hl Hbeta Hcok Hxn Hxd Hf Hfw Hfl Hz Hx Hy Hdelta Hzi.
    destruct S_facts as [HS2 HSe].
    assert (HWp : 0 < 2 ^ W) by (apply pow2_pos; lia).
    assert (H32 : 2 ^ 32 <= 2 ^ W) by (apply Z.pow_le_mono_r; lia).
    assert (H2b : 2 ^ 1 <= 2 ^ beta) by (apply Z.pow_le_mono_r; lia). change (2 ^ 1) with 2 in H2b.
    assert (Htw : 0 <= 2 * f + 1 < 2 ^ W) by nia.
    unfold regular_case. fold W S. rewrite Hlg. cbn [bind]. rewrite Hca. cbn [bind]. rewrite Hl. cbn [bind].
    fold beta. rewrite (delta_ok _ _ _ _ _ HA) by (done || lia). cbn [bind]. fold W c.
    assert (Hd : c / 2 ^ (2 * W - 1 - beta) = fl 2).
    { rewrite <- Hfl by lia. unfold B. replace (2 * c) with (c * 2 ^ 1) by ring.
      rewrite pow2_mul_div by lia. f_equal. f_equal. lia. }
    rewrite Hd. rewrite Z.shiftl_mul_pow2 by lia. change (2 ^ 1) with 2.
    rewrite (wrap_id W (f * 2)) by lia.
    replace (Z.lor (f * 2) 1) with (2 * f + 1).
    2: { rewrite Z.lor_comm. pose proof (lor_split f 1 1 ltac:(lia) ltac:(lia)) as Hlor.
         change (2 ^ 1) with 2 in Hlor. rewrite Hlor. lia. }
    rewrite shl_ok by lia. cbn [bind]. rewrite (wrap_id W) by lia.
    assert (0 <= (2 * f + 1) * 2 ^ beta) by nia.
    rewrite (mul_ok _ _ _ _ _ HA) by (done || (fold W; lia)). fold W c.
    replace ((2 * f + 1) * 2 ^ beta * c) with ((2 * f + 1) * c * 2 ^ beta) by ring.
    rewrite !pow2_mul_div by lia. fold B. rewrite Hfl by lia.
    rewrite int_test by lia. fold B. fold (itest (2 * f + 1)).
    destruct (zi_split f xn xd S Hf Hxn Hxd HS2 HSe Hdelta) as [Hsplit Hr].
    assert (Hzi0 : 0 < fl (2 * f + 1)).
    { unfold fl. assert (fl 2 <= (2 * f + 1) * xn / xd); [|unfold S in *; lia].
      apply Z.div_le_mono; [lia|]. apply Z.mul_le_mono_nonneg_r; lia. }
    rewrite (div_ok _ _ _ _ _ HA) by lia. rewrite Hbig.
    change (fl (2 * f + 1) / (10 * S)) with (big_quot f xn xd S).
    assert (HD : 0 <= big_quot f xn xd S) by (unfold big_quot; apply Z.div_pos; lia).
    assert (Hrr : wrap 32 (wrap W (fl (2 * f + 1) - 10 * S * big_quot f xn xd S)) = big_rem f xn xd S).
    { replace (fl (2 * f + 1) - 10 * S * big_quot f xn xd S) with (big_rem f xn xd S) by lia.
      rewrite (wrap_id W), wrap_id by lia. done. }
    rewrite Hrr.
    replace (f * 2) with (2 * f) by ring. rewrite (wrap_id W (2 * f - 1)) by lia.
    assert (Hbigres : bigcase f xn xd S ->
      exists s t,
        (let* (significand, s) := remove_trailing_zeros A (big_quot f xn xd S) in
         Ok (significand, lg - kappa I + kappa I + 1 + s)) = Ok (s, lg - kappa I + t) /\ found s t).
    { intros Hb. pose proof (proj2 (within_big f xn xd S Hf Hxn Hxd HS2 HSe Hdelta) Hb) as Hin.
      pose proof (within_pos f xn xd Hf Hxn Hxd _ Hin) as Hlow.
      assert (Hq0 : 0 < big_quot f xn xd S) by (apply (Z.mul_pos_cancel_r _ (10 * S)); lia).
      destruct (rtz_ok _ _ _ _ _ HA (big_quot f xn xd S)) as (n' & t & Hrtz & Ht & Hnt & H10).
      { done. }
      { apply Z.div_le_lower_bound; [lia|]. assert (10 <= S) by (destruct HS; lia).
        assert (100 * big_quot f xn xd S <= 10 * S * big_quot f xn xd S) by (apply Z.mul_le_mono_nonneg_r; lia).
        lia. }
      exists n', (kappa I + 1 + t). rewrite Hrtz. cbn [bind]. split; [f_equal; f_equal; lia|].
      by apply big_found. }
    assert (Hsmall : forall D' r', ~ bigcase f xn xd S -> fl (2 * f + 1) = D' * (10 * S) + r' -> 0 <= D' ->
        fl 2 <= r' <= 10 * S ->
      exists s t, small_divisor_case I A ca beta (lg - kappa I) (fl 2) (2 * f) D' r' = Ok (s, lg - kappa I + t) /\
        found s t).
    { intros D' r' Hnb Hs HD' Hr'. exists (rounded f xn xd S D' r' (itest (2 * f))), (kappa I).
      rewrite small_case_ok by done. split; [f_equal; f_equal; lia|]. by apply small_found. }
    assert (Hev : (f mod 2 =? 0) = true <-> Z.Even f) by (rewrite Even_mod; apply Z.eqb_eq).
    destruct (Z.ltb_spec (big_rem f xn xd S) (fl 2)) as [Hlt|Hge].
    - destruct ((big_rem f xn xd S =? 0) && (itest (2 * f + 1) && negb (f mod 2 =? 0))) eqn:Ht.
      + apply andb_prop in Ht as [Ht1 Ht2]. apply andb_prop in Ht2 as [Ht2 Ht3]. apply Z.eqb_eq in Ht1.
        assert (Hne : ~ Z.Even f). { rewrite <- Hev. by apply negb_true_iff, not_true_iff_false in Ht3. }
        assert (Hq0 : 0 < big_quot f xn xd S).
        { apply (Z.mul_pos_cancel_r _ (10 * S)); lia. }
        assert (big_quot f xn xd S < 2 ^ W).
        { assert (big_quot f xn xd S * 1 <= big_quot f xn xd S * (10 * S)) by (apply Z.mul_le_mono_nonneg_l; lia). lia. }
        rewrite (wrap_id W) by lia. apply Hsmall; [|lia|lia|lia].
        intros [[_ Hb]|[Hb _]]; [|lia]. apply Hb. split; [done|]. split; [by apply Hz|done].
      + apply Hbigres. left. split; [done|]. intros (G1 & G2 & G3). apply Hz in G2.
        rewrite G1, G2 in Ht. cbn in Ht. apply negb_false_iff, Hev in Ht. done.
    - destruct (Z.ltb_spec (fl 2) (big_rem f xn xd S)) as [Hgt|Hle].
      + apply Hsmall; [|lia|lia|lia]. intros [[Hb _]|[Hb _]]; lia.
      + rewrite (parity_ok _ _ _ _ _ HA) by (done || (unfold W in *; lia)). cbn [bind]. fold W c B.
        rewrite Hfl by lia. rewrite int_test by lia. fold B. fold (itest (2 * f - 1)).
        destruct (Z.odd (fl (2 * f - 1)) || (itest (2 * f - 1) && (f mod 2 =? 0))) eqn:Ht; cbn [negb].
        * apply Hbigres. right. split; [lia|]. apply orb_prop in Ht as [Ht|Ht]; [by left|right].
          apply andb_prop in Ht as [Ht1 Ht2]. split; [by apply Hx|by apply Hev].
        * apply Hsmall; [|lia|lia|lia]. intros [[Hb _]|[_ [Hb|[Hb1 Hb2]]]]; [lia| |].
          -- by rewrite Hb in Ht.
          -- apply Hx in Hb1. apply Hev in Hb2. rewrite Hb1, Hb2, orb_true_r in Ht. done.
  Qed.
End regular.
