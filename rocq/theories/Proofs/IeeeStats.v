(** The statistics in IEEE 754 arithmetic: signs, special cases and exactness. *)
From Coq Require Import Reals Lra.
From Flocq Require Import Core BinarySingleNaN.
From Verif Require Import Base.Cpp Model.Numeric Model.Ieee Spec.IeeeSpec.
From Verif Require Import Proofs.IeeeProofs Proofs.IeeeOrder Proofs.IeeeError.
Local Open Scope R_scope.

Section ieee.
Context {prec emax : Z} {Hprec : Prec_gt_0 prec} {Hemax : Prec_lt_emax prec emax}.
Notation flt := (binary_float prec emax).
Notation fexp := (SpecFloat.fexp prec emax).
Notation emin := (SpecFloat.emin prec emax).
Notation rnd := (round radix2 fexp ZnearestE).
Notation big := (bpow radix2 emax).
Notation add := (fadd prec emax).
Notation sub := (fsub prec emax).
Notation mul := (fmul prec emax).
Notation div := (fdiv prec emax).
Notation sqr := (fsqrt prec emax).
Notation zero := (fzero prec emax).
Notation huge := (fhuge prec emax).
Notation le := (flt_le prec emax).
Notation lt := (flt_lt prec emax).

(** ** Numbers *)
Lemma fhuge_value : B2R huge = largest prec emax.
Proof.
  pose proof (prec_pos (prec := prec)) as Hp. unfold fhuge, Bmax_float. rewrite B2R_SF2B. cbn [SF2R].
  unfold F2R, largest. cbn [cond_Zopp Fnum Fexp].
  rewrite Pos2Z.inj_sub.
  - rewrite shift_pos_correct, Z.mul_1_r, Z.pow_pos_fold, Z2Pos.id by done.
    rewrite minus_IZR. change (2 ^ prec)%Z with (radix2 ^ prec)%Z. rewrite IZR_Zpower by lia.
    rewrite Rmult_minus_distr_r, <- bpow_plus. replace (prec + (emax - prec))%Z with emax by lia. lra.
  - change (Z.pos 1 < Z.pos (shift_pos (Z.to_pos prec) 1))%Z.
    rewrite shift_pos_correct, Z.mul_1_r, Z.pow_pos_fold, Z2Pos.id by done. by apply (Zpower_gt_1 radix2).
Qed.

Lemma of_Z_exact' z : (3 <= emax)%Z -> (Z.abs z <= 2 ^ prec)%Z ->
  finite (fof_Z prec emax z) /\ B2R (fof_Z prec emax z) = IZR z.
Proof.
  intros He Hz. pose proof (binary_normalize_correct prec emax Hprec Hemax mode_NE z 0 false) as H.
  assert (F2R (Float radix2 z 0) = IZR z) as E by (unfold F2R; cbn; lra). cbv zeta in H. rewrite E in H.
  cbn [round_mode] in H. rewrite round_generic in H; [|apply valid_rnd_N|by apply IZR_format'].
  rewrite Rlt_bool_true in H; [by destruct H as (H1 & H2 & _)|].
  rewrite <- abs_IZR. eapply Rle_lt_trans; [apply IZR_le, Hz|apply pow_prec_lt_big].
Qed.

Lemma double_value : big <= rnd (B2R huge + B2R huge).
Proof.
  pose proof (prec_pos (prec := prec)). pose proof (prec_emax (prec := prec) (emax := emax)).
  apply round_ge_generic; [apply fexp_valid|apply valid_rnd_N| |].
  - apply format_bpow. unfold SpecFloat.emin. lia.
  - rewrite fhuge_value. unfold largest.
    assert (2 * bpow radix2 (emax - prec) <= big); [|lra].
    change 2 with (bpow radix2 1). rewrite <- bpow_plus. apply bpow_le. lia.
Qed.
Lemma double_huge_pos : add huge huge = B754_infinity false.
Proof.
  destruct (fadd_spec huge huge fhuge_finite fhuge_finite) as [(_ & _ & H & _)|(-> & _)]; [|done].
  pose proof double_value. pose proof (Rle_abs (rnd (B2R huge + B2R huge))). lra.
Qed.
Lemma double_huge : add (fopp prec emax huge) (fopp prec emax huge) = B754_infinity true.
Proof.
  destruct (fadd_spec (fopp prec emax huge) (fopp prec emax huge)) as [(_ & _ & H & _)|(-> & _)]; [done|done| |done].
  unfold fopp in H. rewrite B2R_Bopp in H. replace (- B2R huge + - B2R huge) with (- (B2R huge + B2R huge)) in H by lra.
  rewrite rnd_opp, Rabs_Ropp in H. pose proof double_value. pose proof (Rle_abs (rnd (B2R huge + B2R huge))). lra.
Qed.

Lemma zero_value (x : flt) : finite x -> B2R x = 0 -> exists s, x = B754_zero s.
Proof.
  unfold finite. destruct x as [s|s| |s m e He]; try done; [eauto|]. intros _ E. exfalso.
  assert (is_finite_strict (B754_finite s m e He) = true) as Hs by done.
  pose proof (abs_B2R_ge_emin prec emax _ Hs) as Hb. rewrite E, Rabs_R0 in Hb. pose proof (bpow_gt_0 radix2 emin). lra.
Qed.

(** ** Sums *)
Lemma total_perm (f : flt -> R) xs ys : xs ≡ₚ ys -> total (map f xs) = total (map f ys).
Proof. unfold total. induction 1 as [|x xs ys _ IH|x y xs|xs ys zs _ IH1 _ IH2]; cbn; lra. Qed.

Lemma zip_with_comm {A B} (f g : A -> A -> B) xs ys : (forall x y, f x y = g y x) -> zip_with f xs ys = zip_with g ys xs.
Proof. intros H. revert ys. induction xs as [|x xs IH]; intros [|y ys]; cbn; [done..|]. by rewrite H, IH. Qed.
Lemma zip_with_self {A B} (f : A -> A -> B) xs : zip_with f xs xs = map (fun x => f x x) xs.
Proof. induction xs as [|x xs IH]; cbn; [done|]. by rewrite IH. Qed.

Lemma fof_size_exact n : (3 <= emax)%Z -> (Z.of_nat n <= 2 ^ prec)%Z ->
  finite (fof_size prec emax n) /\ B2R (fof_size prec emax n) = INR n.
Proof. intros He Hn. rewrite INR_IZR_INZ. apply of_Z_exact'; [done|lia]. Qed.

Lemma nearest_rnd r : nearest prec emax r = rnd r.
Proof. done. Qed.

Lemma abs_total xs : Rabs (total (map (@B2R prec emax) xs)) <= total (map (fun x => Rabs (B2R x)) xs).
Proof. apply rsum_le_abs. Qed.

Lemma mean_exact (xs : list flt) : (64 < emax)%Z -> Forall whole_number xs ->
  total (map (fun x => Rabs (real x)) xs) <= IZR (2 ^ prec) -> (1 <= Z.of_nat (length xs) <= 2 ^ prec)%Z ->
  finite (fmean prec emax xs) /\ real (fmean prec emax xs) = nearest prec emax (total (map real xs) / INR (length xs)).
Proof.
  intros He Hw Hb Hn. destruct (sum_whole xs ltac:(lia) Hw Hb) as [[H1 H2] H3].
  destruct (fof_size_exact (length xs)) as [H4 H5]; [lia|lia|].
  assert (1 <= INR (length xs)) as HN by (rewrite INR_IZR_INZ; apply (IZR_le 1); lia).
  assert (B2R (fof_size prec emax (length xs)) <> 0) as Hnz by lra.
  unfold fmean, real in *. rewrite nearest_rnd. change (total (map (fun x => B2R x) xs)) with (fold_right Rplus 0 (map (@B2R prec emax) xs)).
  destruct (fdiv_spec _ _ H1 Hnz) as [(G1 & G2 & _)|[_ G]]; [by rewrite G2, H3, H5|]. exfalso.
  rewrite H3, H5 in G. set (S := fold_right _ _ _) in *.
  assert (Rabs (rnd (S / INR (length xs))) <= IZR (2 ^ prec)) as Hr.
  { apply abs_round_le_generic; [apply fexp_valid|apply valid_rnd_N| |].
    - apply IZR_format'; [lia|]. rewrite Z.abs_eq; [lia|]. apply Z.pow_nonneg. lia.
    - unfold Rdiv. rewrite Rabs_mult. pose proof (abs_total xs) as Ha. fold S in Ha.
      assert (Rabs (/ INR (length xs)) <= 1) as Hi.
      { rewrite Rabs_pos_eq by (apply Rlt_le, Rinv_0_lt_compat; lra).
        apply Rle_trans with (/ 1); [|lra]. apply Rinv_le; lra. }
      apply Rle_trans with (Rabs S * 1); [apply Rmult_le_compat_l; [apply Rabs_pos|done]|].
      change (Rabs S <= total (map (fun x => Rabs (B2R x)) xs)) in Ha. lra. }
  pose proof (pow_prec_lt_big (prec := prec) (emax := emax)). lra.
Qed.

Lemma size_pos n : (64 < emax)%Z -> (1 <= Z.of_nat n < 2 ^ 64)%Z ->
  is_finite (fof_size prec emax n) = true /\ Bsign (fof_size prec emax n) = false /\ B2R (fof_size prec emax n) <> 0.
Proof.
  intros He Hn. destruct (fof_Z_pos (Z.of_nat n) He Hn) as (H1 & H2 & H3). unfold fof_size. split_and!; [done|done|lra].
Qed.

Lemma mean_not_nan xs : (64 < emax)%Z -> (1 <= Z.of_nat (length xs) < 2 ^ 64)%Z -> all_finite xs ->
  is_nan (fmean prec emax xs) = false.
Proof.
  intros He Hn Hf. destruct (size_pos (length xs) He Hn) as (H1 & H2 & H3). apply div_not_nan; [|done|done].
  by apply fold_not_nan.
Qed.

(** ** Non-negative statistics *)
Lemma pos_mean (xs : list flt) : (64 < emax)%Z -> (1 <= Z.of_nat (length xs) < 2 ^ 64)%Z -> Forall pos xs ->
  pos (fmean prec emax xs).
Proof.
  intros He Hn Hf. destruct (size_pos (length xs) He Hn) as (H1 & H2 & H3). apply pos_div; [|done|done|done]. by apply pos_sum.
Qed.
Lemma pos_square_errors (xs ys : list flt) : all_finite xs -> all_finite ys ->
  Forall pos (zip_with (fsquare_error prec emax) xs ys).
Proof.
  intros Hx. revert ys. induction Hx as [|x xs Hx Hxs IH]; intros [|y ys] Hy; cbn; constructor.
  - apply pos_square, sub_not_nan; [done|]. apply fin_not_nan. by inversion Hy.
  - apply IH. by inversion Hy.
Qed.

Lemma divisor_pos (bessel : bool) n : (64 < emax)%Z -> ((if bessel then 2 else 1) <= Z.of_nat n < 2 ^ 64)%Z ->
  is_finite (fdivisor prec emax bessel n) = true /\ Bsign (fdivisor prec emax bessel n) = false /\
  B2R (fdivisor prec emax bessel n) <> 0.
Proof.
  intros He Hn. destruct bessel; [|by apply size_pos]. unfold fdivisor, fof_size_minus_1.
  replace (conv (ITy 64 false) (Z.of_nat n - 1)) with (Z.of_nat n - 1)%Z.
  - destruct (fof_Z_pos (Z.of_nat n - 1) He) as (H1 & H2 & H3); [lia|]. split_and!; [done|done|lra].
  - unfold conv, lo. cbn [bits signed]. rewrite Z.mod_small; lia.
Qed.

Lemma pos_variance (bessel : bool) xs : (64 < emax)%Z -> all_finite xs ->
  ((if bessel then 2 else 1) <= Z.of_nat (length xs) < 2 ^ 64)%Z -> pos (fvariance prec emax bessel xs).
Proof.
  intros He Hf Hn. unfold fvariance. destruct (divisor_pos bessel (length xs) He Hn) as (H1 & H2 & H3).
  apply pos_div; [|done|done|done]. apply pos_sum.
  assert (is_nan (fmean prec emax xs) = false) as Hm by (apply mean_not_nan; [done|destruct bessel; lia|done]).
  apply Forall_fmap, (Forall_impl _ _ _ Hf). intros x Hx. by apply pos_square, sub_not_nan.
Qed.

(** ** Special cases *)
Lemma mean_one x : (64 < emax)%Z -> finite x -> finite (fmean prec emax [x]) /\ B2R (fmean prec emax [x]) = B2R x.
Proof.
  intros He Hx. unfold fmean, fsum. cbn [fold_left length].
  destruct (add_zero x Hx) as [H1 H2]. destruct (fof_size_exact 1) as [H3 H4]; [lia| |].
  { change (Z.of_nat 1) with (2 ^ 0)%Z. pose proof (prec_pos (prec := prec)). apply Z.pow_le_mono_r; lia. }
  cbn in H4. assert (B2R (fof_size prec emax 1) <> 0) as Hnz by lra.
  assert (rnd (B2R x) = B2R x) as Er by (apply round_generic; [apply valid_rnd_N|apply format]).
  destruct (fdiv_spec _ _ H1 Hnz) as [(G1 & G2 & _)|[_ G]].
  - split; [done|]. rewrite G2, H2, H4. unfold Rdiv. rewrite Rinv_1, Rmult_1_r. done.
  - rewrite H2, H4 in G. unfold Rdiv in G. rewrite Rinv_1, Rmult_1_r, Er in G.
    pose proof (abs_B2R_lt_emax prec emax x). lra.
Qed.

Lemma square_zero x : finite x -> B2R x = 0 -> fsquare prec emax x = zero.
Proof.
  intros Hx E. destruct (zero_value x Hx E) as [s ->]. unfold fsquare, fmul. cbn. by destruct s.
Qed.

Lemma sub_equal x y : finite x -> finite y -> B2R x = B2R y -> finite (sub x y) /\ B2R (sub x y) = 0.
Proof.
  intros Hx Hy E. assert (B2R x - B2R y = 0) as E0 by lra.
  destruct (fsub_spec x y Hx Hy) as [(H1 & H2 & _)|(_ & _ & H)]; rewrite E0, rnd_0 in *; [done|].
  rewrite Rabs_R0 in H. pose proof (bpow_gt_0 radix2 emax). lra.
Qed.

Lemma bessel_one x : (64 < emax)%Z -> finite x -> fvariance prec emax true [x] = B754_nan.
Proof.
  intros He Hx. unfold fvariance. cbn [map length]. destruct (mean_one x He Hx) as [H1 H2].
  destruct (sub_equal x (fmean prec emax [x]) Hx H1) as [H3 H4]; [done|].
  rewrite (square_zero _ H3 H4). done.
Qed.

Lemma bessel_none : (64 < emax)%Z -> fvariance prec emax true [] = zero.
Proof.
  intros He. unfold fvariance. cbn [map length fdivisor]. unfold fof_size_minus_1.
  replace (conv (ITy 64 false) (Z.of_nat 0 - 1)) with (2 ^ 64 - 1)%Z by done.
  destruct (fof_Z_pos (2 ^ 64 - 1) He) as (H1 & H2 & H3); [lia|]. unfold fsum. cbn [fold_left].
  destruct (fof_Z prec emax (2 ^ 64 - 1)) as [s|s| |s m e Hb]; try done; cbn in *; [lra|]. by subst s.
Qed.

Lemma fold_zeros n : fold_left add (replicate n zero) zero = zero.
Proof. induction n as [|n IH]; [done|]. cbn. exact IH. Qed.

Lemma self_errors xs : (64 < emax)%Z -> (1 <= Z.of_nat (length xs) < 2 ^ 64)%Z -> all_finite xs ->
  fsse prec emax xs xs = zero /\ fmse prec emax xs xs = zero /\ frmse prec emax xs xs = zero.
Proof.
  intros He Hn Hf.
  assert (zip_with (fsquare_error prec emax) xs xs = replicate (length xs) zero) as E.
  { rewrite zip_with_self. clear Hn. induction Hf as [|x xs Hx Hxs IH]; cbn; [done|]. rewrite IH. f_equal.
    unfold fsquare_error. by rewrite sub_self. }
  assert (fmse prec emax xs xs = zero) as E2.
  { unfold fmse, fmean, fsum. rewrite E, fold_zeros, replicate_length.
    destruct (size_pos (length xs) He Hn) as (H1 & H2 & H3).
    destruct (fof_size prec emax (length xs)) as [s|s| |s m e Hb]; try done; cbn in *. by subst s. }
  split_and!; [unfold fsse, fsum; by rewrite E, fold_zeros|done|]. unfold frmse. rewrite E2. done.
Qed.

(** ** Extreme elements *)
Lemma extremes (xs : list flt) : Forall (fun x => ~ not_a_number x) xs ->
  ((exists x, x ∈ xs /\ at_most (ftiny prec emax) x) ->
     fmax_elem prec emax xs ∈ xs /\ forall x, x ∈ xs -> at_most x (fmax_elem prec emax xs)) /\
  ((exists x, x ∈ xs /\ at_most x (fhuge prec emax)) ->
     fmin_elem prec emax xs ∈ xs /\ forall x, x ∈ xs -> at_most (fmin_elem prec emax xs) x).
Proof.
  intros Hn. assert (Forall (fun x => is_nan x = false) xs) as Hs.
  { apply (Forall_impl _ _ _ Hn). intros x. unfold not_a_number. by destruct (is_nan x). }
  assert (is_nan (ftiny prec emax) = false) as Ht by (apply fin_not_nan, tiny_spec).
  assert (is_nan huge = false) as Hh by done.
  split.
  - intros (x & Hx & Hle). destruct (fold_max (ftiny prec emax) xs Ht Hs) as (H1 & H2 & H3 & H4).
    split; [|done]. destruct H4 as [H4|[_ H4]]; [done|]. specialize (H4 x Hx).
    assert (is_nan x = false) as Hxn by (by apply (Forall_forall (fun x => is_nan x = false) xs)).
    apply lt_rank in H4; [|done|done]. apply le_rank in Hle; [lra|done|done].
  - intros (x & Hx & Hle). destruct (fold_min huge xs Hh Hs) as (H1 & H2 & H3 & H4).
    split; [|done]. destruct H4 as [H4|[_ H4]]; [done|]. specialize (H4 x Hx).
    assert (is_nan x = false) as Hxn by (by apply (Forall_forall (fun x => is_nan x = false) xs)).
    apply lt_rank in H4; [|done|done]. apply le_rank in Hle; [lra|done|done].
Qed.
End ieee.

(** Small whole numbers of type double. *)
Lemma of_Z_exact z : (Z.abs z <= 2 ^ 53)%Z -> B2R (fof_Z 53 1024 z) = IZR z.
Proof. intros Hz. apply of_Z_exact'; [lia|done]. Qed.
Lemma of_Z_exact_finite z : (Z.abs z <= 2 ^ 53)%Z -> finite (fof_Z 53 1024 z).
Proof. intros Hz. apply of_Z_exact'; [lia|done]. Qed.
