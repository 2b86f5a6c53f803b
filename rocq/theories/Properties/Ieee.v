(** Properties of the statistics in IEEE 754 arithmetic, for every format: [prec] bits, exponents
    below [emax]; 24 and 128 for float, 53 and 1024 for double. *)
From Coq Require Import Reals Lra.
From Flocq Require Import Core BinarySingleNaN.
From Verif Require Import Base.Cpp Model.Numeric Model.Ieee Spec.IeeeSpec.
From Verif Require Import Proofs.IeeeProofs Proofs.IeeeOrder Proofs.IeeeError Proofs.IeeeStats Proofs.IeeeSpread.
Local Open Scope R_scope.

(** Numbers of type double in the examples. *)
Notation dbl := (binary_float 53 1024).
Notation "'d' z" := (fof_Z 53 1024 z%Z) (at level 5).
Notation tenth := (fdiv 53 1024 (d 1) (d 10)).
Notation infinity := (@B754_infinity 53 1024 false).
Notation nan := (@B754_nan 53 1024).

(** ** C154: the error of a sum *)

(** If sum gives a finite number, every element was finite and the result is as close to the exact
    sum as n - 1 roundings allow. *)
Theorem C154_sum_error : forall prec emax `{Prec_gt_0 prec, Prec_lt_emax prec emax} (xs : list (binary_float prec emax)),
  finite (fsum prec emax xs) ->
  all_finite xs /\
  Rabs (real (fsum prec emax xs) - total (map real xs)) <=
    ((1 + unit_error prec) ^ (length xs - 1) - 1) * total (map (fun x => Rabs (real x)) xs).
Proof. intros prec emax Hp He xs Hf. split; [by apply (fold_finite_inv _ _ Hf)|by apply sum_error]. Qed.
Print Assumptions C154_sum_error.
Example C154_sum_error_case : finite (fsum 53 1024 [tenth; d 3; fopp 53 1024 (d 7)]).
Proof. vm_compute. done. Qed.

(** It is finite if the elements are finite and their absolute values do not add up to too much. *)
Theorem C154_no_overflow : forall prec emax `{Prec_gt_0 prec, Prec_lt_emax prec emax} (xs : list (binary_float prec emax)),
  all_finite xs ->
  (1 + unit_error prec) ^ (length xs - 1) * total (map (fun x => Rabs (real x)) xs) <= largest prec emax ->
  finite (fsum prec emax xs).
Proof.
  intros prec emax Hp He xs Hf Hb. apply sum_in_range; [done|]. rewrite fhuge_value. done.
Qed.
Print Assumptions C154_no_overflow.
Example C154_no_overflow_case : all_finite [d 1; d 2] /\
  (1 + unit_error 53) ^ (length [d 1; d 2] - 1) * total (map (fun x => Rabs (real x)) [d 1; d 2]) <= largest 53 1024.
Proof.
  split; [repeat constructor|]. cbn [length Nat.sub Rpow_def.pow map total fold_right]. unfold real.
  assert (B2R (d 1) = 1) as -> by (apply of_Z_exact; lia). assert (B2R (d 2) = 2) as -> by (apply of_Z_exact; lia).
  rewrite !Rabs_pos_eq by lra. unfold unit_error, largest.
  assert (bpow radix2 (Z.opp 53) <= bpow radix2 0) as H1 by (apply bpow_le; lia). change (bpow radix2 0) with 1 in H1.
  assert (bpow radix2 1024 = 2 * bpow radix2 1023) as H2 by (exact (bpow_plus radix2 1 1023)).
  assert (bpow radix2 (1024 - 53) <= bpow radix2 1023) as H3 by (apply bpow_le; lia).
  assert (bpow radix2 3 <= bpow radix2 1023) as H4 by (apply bpow_le; lia). change (bpow radix2 3) with 8 in H4.
  lra.
Qed.

(** A NaN among the elements makes the sum a NaN, and finite elements never do. *)
Theorem C154_nan : forall prec emax `{Prec_gt_0 prec, Prec_lt_emax prec emax} (xs : list (binary_float prec emax)),
  ((exists x, x ∈ xs /\ not_a_number x) -> not_a_number (fsum prec emax xs)) /\
  (all_finite xs -> ~ not_a_number (fsum prec emax xs)).
Proof.
  intros prec emax Hp He xs. split; [by apply sum_nan|]. intros Hf. unfold not_a_number, fsum.
  rewrite (fold_not_nan (fzero prec emax) xs eq_refl Hf). done.
Qed.
Print Assumptions C154_nan.
Example C154_nan_case : not_a_number (fsum 53 1024 [d 1; nan; d 3]) /\ all_finite [d 1; tenth; fhuge 53 1024].
Proof. split; [by vm_compute|]. repeat constructor; by vm_compute. Qed.

(** False of the code: an infinity and finite numbers of the other sign can add up to a NaN, although
    the exact sum is that infinity. *)
Theorem C154_infinity_refuted : forall prec emax `{Prec_gt_0 prec, Prec_lt_emax prec emax},
  let huge := fhuge prec emax in
  finite (fopp prec emax huge) /\
  not_a_number (fsum prec emax [fopp prec emax huge; fopp prec emax huge; B754_infinity false]) /\
  fsum prec emax [B754_infinity false; fopp prec emax huge; fopp prec emax huge] = B754_infinity false.
Proof.
  intros prec emax Hp He huge. split_and!; [done| |done].
  unfold fsum. cbn [fold_left]. unfold not_a_number.
  replace (fadd prec emax (fadd prec emax (fzero prec emax) (fopp prec emax huge)) (fopp prec emax huge))
    with (@B754_infinity prec emax true); [done|]. symmetry.
  replace (fadd prec emax (fzero prec emax) (fopp prec emax huge)) with (fopp prec emax huge) by done.
  apply double_huge.
Qed.
Print Assumptions C154_infinity_refuted.

(** ** C155: exact sums *)

(** Whole numbers whose absolute values add up to at most 2^prec are added exactly, so in any order
    with the same result; their mean is the number nearest to the exact mean. *)
Theorem C155_exact : forall prec emax `{Prec_gt_0 prec, Prec_lt_emax prec emax} (xs : list (binary_float prec emax)),
  (64 < emax)%Z -> Forall whole_number xs -> total (map (fun x => Rabs (real x)) xs) <= IZR (2 ^ prec) ->
  finite (fsum prec emax xs) /\ real (fsum prec emax xs) = total (map real xs) /\
  (forall ys, ys ≡ₚ xs -> real (fsum prec emax ys) = real (fsum prec emax xs)) /\
  ((1 <= Z.of_nat (length xs) <= 2 ^ prec)%Z -> (Z.of_nat (length xs) < 2 ^ 64)%Z ->
     finite (fmean prec emax xs) /\ real (fmean prec emax xs) = nearest prec emax (total (map real xs) / INR (length xs))).
Proof.
  intros prec emax Hp He xs Hem Hw Hb. destruct (sum_whole xs ltac:(lia) Hw Hb) as [[H1 H2] H3].
  split_and!; [done|done| |].
  - intros ys Hys. unfold real. rewrite H3. destruct (sum_whole ys ltac:(lia)) as [_ ->].
    + by rewrite Hys.
    + eapply Rle_trans; [right|exact Hb]. apply (total_perm (fun x => Rabs (B2R x))). done.
    + by apply (total_perm (@B2R prec emax)).
  - intros Hn Hn2. by apply mean_exact.
Qed.
Print Assumptions C155_exact.
Example C155_exact_case : Forall whole_number [d 1; d (-5); d 3] /\
  total (map (fun x => Rabs (real x)) [d 1; d (-5); d 3]) <= IZR (2 ^ 53) /\
  flt_le 53 1024 (fmean 53 1024 [d 1; d (-5); d 3]) (d 0) = true.
Proof.
  split_and!; [| |by vm_compute].
  - repeat constructor; first [apply of_Z_exact_finite; lia|eexists; apply of_Z_exact; lia].
  - cbn [map total fold_right]. unfold real. rewrite !of_Z_exact by lia.
    rewrite (Rabs_pos_eq 1), (Rabs_pos_eq 3), Rabs_left by lra. rewrite Z.pow_pos_fold || idtac.
    assert (IZR 9 <= IZR (2 ^ 53)) by (apply IZR_le; lia). lra.
Qed.

(** False of the code otherwise: the order of the elements matters. *)
Theorem C155_order_refuted : exists xs ys : list dbl, xs ≡ₚ ys /\ Forall whole_number xs /\
  flt_lt 53 1024 (fsum 53 1024 xs) (fsum 53 1024 ys) = true.
Proof.
  exists [d (2 ^ 53); d 1; d 1], [d 1; d 1; d (2 ^ 53)]. split_and!; [solve_Permutation| |by vm_compute].
  repeat constructor; first [apply of_Z_exact_finite; lia|eexists; apply of_Z_exact; lia].
Qed.
Print Assumptions C155_order_refuted.

(** ** C156: the mean *)

(** If mean gives a finite number, it is as close to the exact mean as its roundings allow; the
    length is rounded too if it exceeds 2^prec. *)
Theorem C156_mean_error : forall prec emax `{Prec_gt_0 prec, Prec_lt_emax prec emax} (xs : list (binary_float prec emax)),
  (64 < emax)%Z -> (1 <= Z.of_nat (length xs) < 2 ^ 64)%Z -> finite (fmean prec emax xs) ->
  let n := INR (length xs) in
  let error c := ((1 + unit_error prec) ^ length xs / (1 - c) - 1) * (total (map (fun x => Rabs (real x)) xs) / n)
                 + least_error prec emax in
  all_finite xs /\
  Rabs (real (fmean prec emax xs) - total (map real xs) / n) <= error (unit_error prec) /\
  ((Z.of_nat (length xs) <= 2 ^ prec)%Z -> Rabs (real (fmean prec emax xs) - total (map real xs) / n) <= error 0).
Proof.
  intros prec emax Hp He xs Hem Hn Hf n error. split_and!.
  - apply fmean_finite_inv in Hf. apply (fold_finite_inv _ _ Hf).
  - apply (mean_error (@u prec)); [done|done|by left|done].
  - intros Hl. apply (mean_error 0); [done|done|by right|done].
Qed.
Print Assumptions C156_mean_error.
Example C156_mean_error_case : (64 < 1024)%Z /\ finite (fmean 53 1024 [tenth; d 3; d 7]).
Proof. split; [lia|]. by vm_compute. Qed.

(** Larger elements give a larger sum and mean, or the same. *)
Theorem C156_monotone : forall prec emax `{Prec_gt_0 prec, Prec_lt_emax prec emax} (xs ys : list (binary_float prec emax)),
  (64 < emax)%Z -> (1 <= Z.of_nat (length xs) < 2 ^ 64)%Z -> all_at_most xs ys ->
  at_most (fsum prec emax xs) (fsum prec emax ys) /\ at_most (fmean prec emax xs) (fmean prec emax ys).
Proof.
  intros prec emax Hp He xs ys Hem Hn H. assert (at_most (fsum prec emax xs) (fsum prec emax ys)) as Hs by (by apply fold_le).
  split; [done|]. unfold fmean. rewrite <- (Forall2_length _ _ _ H).
  destruct (fof_Z_pos (Z.of_nat (length xs)) Hem Hn) as (H1 & H2 & H3). apply div_le; [done|done| |done].
  unfold fof_size. lra.
Qed.
Print Assumptions C156_monotone.
Example C156_monotone_case : all_at_most [d 1; tenth] [d 2; tenth].
Proof. repeat constructor; by vm_compute. Qed.

(** The mean of finite numbers is never a NaN, the mean of none always is. *)
Theorem C156_nan : forall prec emax `{Prec_gt_0 prec, Prec_lt_emax prec emax} (xs : list (binary_float prec emax)),
  (64 < emax)%Z -> (Z.of_nat (length xs) < 2 ^ 64)%Z -> all_finite xs ->
  not_a_number (fmean prec emax xs) <-> xs = [].
Proof.
  intros prec emax Hp He xs Hem Hn Hf. split; [|by intros ->]. intros Hnan. destruct xs as [|x xs]; [done|].
  exfalso. unfold not_a_number in Hnan. rewrite mean_not_nan in Hnan; [done|done| |done]. cbn [length] in *. lia.
Qed.
Print Assumptions C156_nan.
Example C156_nan_case : all_finite [fhuge 53 1024; fhuge 53 1024; tenth].
Proof. repeat constructor; by vm_compute. Qed.

(** False of the code: the mean lies between the least and the greatest element. Equal elements can
    have another mean, and so a positive variance, and finite elements an infinite mean. *)
Theorem C156_between_refuted :
  (exists x : dbl, finite x /\ flt_lt 53 1024 x (fmean 53 1024 [x; x; x]) = true /\
     flt_lt 53 1024 (d 0) (fvariance 53 1024 false [x; x; x]) = true) /\
  (forall prec emax `{Prec_gt_0 prec, Prec_lt_emax prec emax}, (64 < emax)%Z ->
     finite (fhuge prec emax) /\ fmean prec emax [fhuge prec emax; fhuge prec emax] = B754_infinity false).
Proof.
  split.
  - exists tenth. split_and!; by vm_compute.
  - intros prec emax Hp He Hem. split; [done|]. unfold fmean, fsum. cbn [fold_left].
    replace (fadd prec emax (fzero prec emax) (fhuge prec emax)) with (fhuge prec emax) by done.
    rewrite double_huge_pos. cbn [length]. destruct (size_pos 2 Hem ltac:(lia)) as (H1 & H2 & H3).
    destruct (fof_size prec emax 2) as [s|s| |s m e Hb]; try done. cbn in H2. by subst s.
Qed.
Print Assumptions C156_between_refuted.

(** ** C157: what cannot be negative *)

(** rms, mse, rmse, variance and standard_deviation of finite numbers, if there are any, and sse, are
    zero or more, and no NaNs; with Bessel's correction if there are two. *)
Theorem C157_non_negative : forall prec emax `{Prec_gt_0 prec, Prec_lt_emax prec emax} (xs ys : list (binary_float prec emax)) (bessel : bool),
  (64 < emax)%Z -> all_finite xs -> all_finite ys -> length xs = length ys ->
  ((if bessel then 2 else 1) <= Z.of_nat (length xs) < 2 ^ 64)%Z ->
  non_negative (frms prec emax xs) /\ non_negative (fsse prec emax xs ys) /\ non_negative (fmse prec emax xs ys) /\
  non_negative (frmse prec emax xs ys) /\ non_negative (fvariance prec emax bessel xs) /\
  non_negative (fstandard_deviation prec emax bessel xs).
Proof.
  intros prec emax Hp He xs ys bessel Hem Hx Hy Hl Hn.
  assert (1 <= Z.of_nat (length xs) < 2 ^ 64)%Z as Hn1 by (destruct bessel; lia).
  assert (length (zip_with (fsquare_error prec emax) xs ys) = length xs) as El by (by apply zip_with_length_l_eq).
  assert (Forall pos (zip_with (fsquare_error prec emax) xs ys)) as Hz by (by apply pos_square_errors).
  assert (pos (fmean prec emax (map (fsquare prec emax) xs))) as H1.
  { apply pos_mean; [done|by rewrite map_length|]. apply Forall_fmap, (Forall_impl _ _ _ Hx).
    intros x Hfx. apply pos_square. by apply fin_not_nan. }
  assert (pos (fmse prec emax xs ys)) as H3 by (apply pos_mean; [done|by rewrite El|done]).
  assert (pos (fvariance prec emax bessel xs)) as H4 by (by apply pos_variance).
  split_and!; apply pos_le; try done; try (by apply pos_sqrt). by apply pos_sum.
Qed.
Print Assumptions C157_non_negative.
Example C157_non_negative_case : all_finite [d 1; tenth] /\ all_finite [d 2; d 7] /\
  flt_lt 53 1024 (d 0) (fvariance 53 1024 true [d 1; tenth]) = true.
Proof. split_and!; [repeat constructor; by vm_compute..|]. by vm_compute. Qed.

(** False of the code with Bessel's correction otherwise: the variance of one number is a NaN, and
    that of none is 0. *)
Theorem C157_bessel_refuted : forall prec emax `{Prec_gt_0 prec, Prec_lt_emax prec emax}, (64 < emax)%Z ->
  (forall x : binary_float prec emax, finite x ->
     not_a_number (fvariance prec emax true [x]) /\ not_a_number (fstandard_deviation prec emax true [x])) /\
  fvariance prec emax true [] = fzero prec emax.
Proof.
  intros prec emax Hp He Hem. split.
  - intros x Hx. pose proof (bessel_one x Hem Hx) as E. unfold fstandard_deviation. rewrite E. done.
  - by apply bessel_none.
Qed.
Print Assumptions C157_bessel_refuted.

(** ** C158: symmetry *)

(** Exchanging the sequences changes no bit of sse, mse, rmse, covariance and correlation, if they
    are equally long; the covariance of a sequence with itself is its variance. *)
Theorem C158_symmetric : forall prec emax `{Prec_gt_0 prec, Prec_lt_emax prec emax} bessel (xs ys : list (binary_float prec emax)),
  length xs = length ys ->
  fsse prec emax xs ys = fsse prec emax ys xs /\ fmse prec emax xs ys = fmse prec emax ys xs /\
  frmse prec emax xs ys = frmse prec emax ys xs /\
  fcovariance prec emax bessel xs ys = fcovariance prec emax bessel ys xs /\
  fcorrelation prec emax bessel xs ys = fcorrelation prec emax bessel ys xs /\
  fcovariance prec emax bessel xs xs = fvariance prec emax bessel xs.
Proof.
  intros prec emax Hp He bessel xs ys Hl.
  assert (zip_with (fsquare_error prec emax) xs ys = zip_with (fsquare_error prec emax) ys xs) as E1.
  { apply zip_with_comm. intros. apply square_error_comm. }
  assert (fcovariance prec emax bessel xs ys = fcovariance prec emax bessel ys xs) as E2.
  { unfold fcovariance. rewrite Hl. f_equal. f_equal. apply zip_with_comm.
    intros. apply mul_comm. }
  split_and!; [unfold fsse; by rewrite E1|unfold fmse; by rewrite E1|unfold frmse, fmse; by rewrite E1|done| |].
  - unfold fcorrelation. rewrite E2, mul_comm. done.
  - unfold fcovariance, fvariance. do 2 f_equal. by rewrite zip_with_self.
Qed.
Print Assumptions C158_symmetric.

(** The differences of a sequence of finite numbers from itself are zero. *)
Theorem C158_self : forall prec emax `{Prec_gt_0 prec, Prec_lt_emax prec emax} (xs : list (binary_float prec emax)),
  (64 < emax)%Z -> (1 <= Z.of_nat (length xs) < 2 ^ 64)%Z -> all_finite xs ->
  fsse prec emax xs xs = fzero prec emax /\ fmse prec emax xs xs = fzero prec emax /\ frmse prec emax xs xs = fzero prec emax.
Proof. intros. by apply self_errors. Qed.
Print Assumptions C158_self.
Example C158_self_case : all_finite [tenth; d 7] /\
  flt_lt 53 1024 (d 0) (frmse 53 1024 [tenth; d 7] [d 7; tenth]) = true /\
  flt_lt 53 1024 (fcovariance 53 1024 true [tenth; d 7] [d 7; tenth]) (d 0) = true.
Proof. split_and!; [repeat constructor; by vm_compute| |]; by vm_compute. Qed.

(** False of the code: only equal sequences have the difference zero. *)
Theorem C158_zero_refuted : exists x y : dbl, finite x /\ finite y /\ flt_lt 53 1024 x y = true /\
  frmse 53 1024 [x] [y] = fzero 53 1024.
Proof.
  exists (d 0), (fdiv 53 1024 (d 1) (d (10 ^ 200))). split_and!; try by vm_compute.
Qed.
Print Assumptions C158_zero_refuted.

(** False of the code: a correlation lies between -1 and 1. *)
Theorem C158_correlation_refuted : exists xs : list dbl, all_finite xs /\
  flt_lt 53 1024 (d 1) (fcorrelation 53 1024 false xs xs) = true.
Proof. exists [d 0; d 0; d 1]. split; [repeat constructor|]. by vm_compute. Qed.
Print Assumptions C158_correlation_refuted.

(** ** C159: extreme elements *)

(** Without NaNs, max_elem is an element that no other exceeds if some element is at least the least
    positive normalised number, and min_elem is an element that exceeds no other if some element is
    not plus infinity. *)
Theorem C159_extremes_partial : forall prec emax `{Prec_gt_0 prec, Prec_lt_emax prec emax} (xs : list (binary_float prec emax)),
  Forall (fun x => ~ not_a_number x) xs ->
  ((exists x, x ∈ xs /\ (x = B754_infinity false \/ finite x /\ least_normal emax <= real x)) ->
     fmax_elem prec emax xs ∈ xs /\ forall x, x ∈ xs -> at_most x (fmax_elem prec emax xs)) /\
  ((exists x, x ∈ xs /\ x <> B754_infinity false) ->
     fmin_elem prec emax xs ∈ xs /\ forall x, x ∈ xs -> at_most (fmin_elem prec emax xs) x).
Proof.
  intros prec emax Hp He xs Hn. destruct (extremes xs Hn) as [H1 H2]. split; [intros (x & Hx & Hc)|intros (x & Hx & Hc)].
  - apply H1. exists x. split; [done|]. by apply tiny_at_most.
  - apply H2. exists x. split; [done|]. apply at_most_huge; [|done].
    rewrite Forall_forall in Hn. specialize (Hn x Hx). unfold not_a_number in Hn. by destruct (is_nan x).
Qed.
Print Assumptions C159_extremes_partial.
Example C159_extremes_case : Forall (fun x => ~ not_a_number x) [d 1; infinity; d (-3)] /\
  (exists x, x ∈ [d 1; infinity; d (-3)] /\ (x = B754_infinity false \/ finite x /\ least_normal 1024 <= real x)) /\
  (exists x, x ∈ [d 1; infinity; d (-3)] /\ x <> B754_infinity false) /\
  finite (d 1) /\ least_normal 1024 <= real (d 1).
Proof.
  assert (finite (d 1) /\ least_normal 1024 <= real (d 1)) as [H1 H2].
  { split; [by vm_compute|]. unfold real. rewrite of_Z_exact by lia. unfold least_normal.
    change 1 with (bpow radix2 0). apply bpow_le. lia. }
  split_and!; [repeat constructor; by vm_compute| | |done|done].
  - exists (d 1). split; [set_solver|by right].
  - exists (d 1). split; [set_solver|]. intros E. by rewrite E in H1.
Qed.

(** False of the code otherwise: if all elements are smaller, max_elem gives that number instead of
    one of them; the least of infinities is the largest finite number; and a NaN makes both forget all
    elements before it. *)
Theorem C159_extremes_refuted : forall prec emax `{Prec_gt_0 prec, Prec_lt_emax prec emax},
  (forall x : binary_float prec emax, finite x -> real x < least_normal emax ->
     finite (fmax_elem prec emax [x]) /\ real (fmax_elem prec emax [x]) = least_normal emax) /\
  (let least := fmin_elem prec emax [B754_infinity false] in finite least /\ real least = largest prec emax) /\
  (forall (xs : list (binary_float prec emax)) x,
     fmax_elem prec emax (xs ++ [B754_nan; x]) = x /\ fmin_elem prec emax (xs ++ [B754_nan; x]) = x) /\
  (forall xs : list (binary_float prec emax),
     fmax_elem prec emax (xs ++ [B754_nan]) = B754_nan /\ fmin_elem prec emax (xs ++ [B754_nan]) = B754_nan).
Proof.
  intros prec emax Hp He. destruct (tiny_spec (prec := prec) (emax := emax)) as [T1 T2]. split_and!.
  - intros x Hx Hl. unfold fmax_elem, max_elem, max_. cbn [fold_left].
    replace (flt_lt prec emax x (ftiny prec emax)) with true; [done|].
    symmetry. apply lt_finite; [done|done|]. rewrite T2. exact Hl.
  - unfold fmin_elem, min_elem, min_. cbn [fold_left]. replace (flt_lt prec emax (fhuge prec emax) (B754_infinity false)) with true by done.
    split; [done|apply fhuge_value].
  - intros xs x. split; [by apply fold_max_forgets|by apply fold_min_forgets].
  - intros xs. unfold fmax_elem, fmin_elem, max_elem, min_elem. rewrite !fold_left_app. cbn [fold_left].
    unfold max_ at 1, min_ at 1. rewrite lt_nan_l, lt_nan_r by done. done.
Qed.
Print Assumptions C159_extremes_refuted.

(** ** C160: is_approx *)

(** Finite numbers at most epsilon apart are approximately equal, and those that are, are at most
    epsilon and half a unit in its last place apart; from 2 on, only equal numbers are. *)
Theorem C160_is_approx_partial : forall prec emax `{Prec_gt_0 prec, Prec_lt_emax prec emax} (x y : binary_float prec emax),
  finite x -> finite y ->
  let epsilon := bpow radix2 (1 - prec) in
  (Rabs (real x - real y) <= epsilon -> fis_approx prec emax x y = true) /\
  (fis_approx prec emax x y = true -> Rabs (real x - real y) <= epsilon * (1 + unit_error prec)) /\
  (2 <= Rabs (real x) -> 2 <= Rabs (real y) -> fis_approx prec emax x y = true <-> real x = real y) /\
  fis_approx prec emax x x = true.
Proof.
  intros prec emax Hp He x y Hx Hy epsilon. split_and!; [by apply approx_close|by apply approx_far|by apply approx_coarse|].
  apply approx_close; [done|done|]. rewrite Rminus_eq_0, Rabs_R0. apply bpow_ge_0.
Qed.
Print Assumptions C160_is_approx_partial.
Example C160_is_approx_case :
  let x := fadd 53 1024 (fadd 53 1024 tenth tenth) tenth in let y := fdiv 53 1024 (d 3) (d 10) in
  finite x /\ finite y /\ flt_lt 53 1024 y x = true /\ fis_approx 53 1024 x y = true /\
  fis_approx 53 1024 (d 3) (Bsucc (d 3)) = false.
Proof. cbv zeta. split_and!; by vm_compute. Qed.

(** The order of the arguments does not matter; nothing is approximately equal to a NaN. *)
Theorem C160_symmetric : forall prec emax `{Prec_gt_0 prec, Prec_lt_emax prec emax} (x y : binary_float prec emax),
  fis_approx prec emax x y = fis_approx prec emax y x /\ (not_a_number x -> fis_approx prec emax x y = false).
Proof.
  intros prec emax Hp He x y. split; [apply approx_comm|]. intros Hx. apply approx_not_finite. left. by destruct x.
Qed.
Print Assumptions C160_symmetric.

(** False of the code: every number but a NaN is approximately equal to itself. No infinity is. And
    4 is not approximately equal to the next number. *)
Theorem C160_is_approx_refuted :
  (forall prec emax `{Prec_gt_0 prec, Prec_lt_emax prec emax} s (y : binary_float prec emax),
     fis_approx prec emax (B754_infinity s) y = false) /\
  (exists x y : dbl, Bsucc x = y /\ real x = 4 /\ fis_approx 53 1024 x y = false).
Proof.
  split.
  - intros. apply approx_not_finite. by left.
  - exists (d 4), (Bsucc (d 4)). split_and!; [done|apply of_Z_exact; lia|by vm_compute].
Qed.
Print Assumptions C160_is_approx_refuted.

(** ** C161: the errors of sums of squared differences *)
Theorem C161_squares_error : forall prec emax `{Prec_gt_0 prec, Prec_lt_emax prec emax} (xs ys : list (binary_float prec emax)),
  length xs = length ys ->
  let S := total (zip_with (fun x y => (real x - real y) ^ 2) xs ys) in
  let n := INR (length xs) in
  let h := least_error prec emax in
  let u := unit_error prec in
  let P := (1 + u) ^ length xs / (1 - count_error prec (length xs)) in
  (finite (fsse prec emax xs ys) ->
     Rabs (real (fsse prec emax xs ys) - S) <= ((1 + u) ^ (length xs + 2) - 1) * S + (1 + u) ^ (length xs - 1) * (n * h)) /\
  ((64 < emax)%Z -> (1 <= Z.of_nat (length xs) < 2 ^ 64)%Z -> finite (fmse prec emax xs ys) ->
     Rabs (real (fmse prec emax xs ys) - S / n) <= (P * (1 + u) ^ 3 - 1) * (S / n) + P * h + h).
Proof.
  intros prec emax Hp He xs ys Hl S n h u0 P. split.
  - by apply sse_error.
  - intros Hem Hn Hf. exact (mse_error' xs ys Hem Hl Hn Hf).
Qed.
Print Assumptions C161_squares_error.
Example C161_squares_error_case : finite (fmse 53 1024 [tenth; d 3] [d 7; d 5]).
Proof. by vm_compute. Qed.

(** ** C162: the errors of variance and covariance *)

(** If covariance gives a finite number, every element and both means are finite, and the result is
    as close to the exact covariance, with n or n - 1 as divisor, as the errors of the means and the
    roundings allow. *)
Theorem C162_covariance_error : forall prec emax `{Prec_gt_0 prec, Prec_lt_emax prec emax} (bessel : bool)
    (xs ys : list (binary_float prec emax)),
  (64 < emax)%Z -> length xs = length ys -> ((if bessel then 2 else 1) <= Z.of_nat (length xs) < 2 ^ 64)%Z ->
  finite (fcovariance prec emax bessel xs ys) ->
  let k := if bessel then (length xs - 1)%nat else length xs in
  let r := INR (length xs) / INR k in
  let a := real (fmean prec emax xs) in
  let b := real (fmean prec emax ys) in
  let u := unit_error prec in
  let h := least_error prec emax in
  let P := (1 + u) ^ length xs / (1 - count_error prec k) in
  (all_finite xs /\ all_finite ys /\ finite (fmean prec emax xs) /\ finite (fmean prec emax ys)) /\
  Rabs (real (fcovariance prec emax bessel xs ys) - total (products (exact_mean xs) (exact_mean ys) xs ys) / INR k) <=
    (P * (1 + u) ^ 3 - 1) * (total (map Rabs (products a b xs ys)) / INR k)
    + r * Rabs ((a - exact_mean xs) * (b - exact_mean ys)) + P * (r * h) + h.
Proof. intros prec emax Hp He bessel xs ys Hem Hl Hn Hf k r a b u0 h P. by apply (covariance_error bessel xs ys). Qed.
Print Assumptions C162_covariance_error.
Example C162_covariance_error_case : finite (fcovariance 53 1024 true [tenth; d 3; d 5] [d 7; tenth; d 2]).
Proof. by vm_compute. Qed.

(** The same of variance. *)
Theorem C162_variance_error : forall prec emax `{Prec_gt_0 prec, Prec_lt_emax prec emax} (bessel : bool)
    (xs : list (binary_float prec emax)),
  (64 < emax)%Z -> ((if bessel then 2 else 1) <= Z.of_nat (length xs) < 2 ^ 64)%Z ->
  finite (fvariance prec emax bessel xs) ->
  let k := if bessel then (length xs - 1)%nat else length xs in
  let r := INR (length xs) / INR k in
  let u := unit_error prec in
  let h := least_error prec emax in
  let P := (1 + u) ^ length xs / (1 - count_error prec k) in
  let V := total (map (fun x => (real x - exact_mean xs) ^ 2) xs) / INR k in
  let D := (real (fmean prec emax xs) - exact_mean xs) ^ 2 in
  (all_finite xs /\ finite (fmean prec emax xs)) /\
  Rabs (real (fvariance prec emax bessel xs) - V) <= (P * (1 + u) ^ 3 - 1) * V + P * (1 + u) ^ 3 * (r * D) + P * (r * h) + h.
Proof.
  intros prec emax Hp He bessel xs Hem Hn Hf k r u0 h P V D.
  destruct (variance_error bessel xs Hem Hn Hf) as [H1 H2]. split; [done|].
  replace V with (total (products (exact_mean xs) (exact_mean xs) xs xs) / INR k); [exact H2|].
  unfold V, products. rewrite zip_with_self. do 2 f_equal. apply map_ext. intros x. ring.
Qed.
Print Assumptions C162_variance_error.
Example C162_variance_error_case : finite (fvariance 53 1024 true [tenth; d 3; d 5]) /\
  finite (fvariance 53 1024 false [tenth; d 3; d 5]).
Proof. split; by vm_compute. Qed.

(** ** C163: roots and quotients *)

(** rms and rmse are the numbers nearest to the root of a number close to the mean of the squares;
    standard_deviation is the number nearest to the root of the variance. *)
Theorem C163_roots : forall prec emax `{Prec_gt_0 prec, Prec_lt_emax prec emax} (xs ys : list (binary_float prec emax)) (bessel : bool),
  (64 < emax)%Z -> length xs = length ys -> (1 <= Z.of_nat (length xs) < 2 ^ 64)%Z ->
  let n := INR (length xs) in
  let u := unit_error prec in
  let h := least_error prec emax in
  let P := (1 + u) ^ length xs / (1 - count_error prec (length xs)) in
  let Q := total (map (fun x => real x ^ 2) xs) / n in
  let M := total (zip_with (fun x y => (real x - real y) ^ 2) xs ys) / n in
  (finite (frms prec emax xs) -> exists q, 0 <= q /\ Rabs (q - Q) <= (P * (1 + u) - 1) * Q + P * h + h /\
     real (frms prec emax xs) = nearest prec emax (R_sqrt.sqrt q)) /\
  (finite (frmse prec emax xs ys) -> exists q, 0 <= q /\ Rabs (q - M) <= (P * (1 + u) ^ 3 - 1) * M + P * h + h /\
     real (frmse prec emax xs ys) = nearest prec emax (R_sqrt.sqrt q)) /\
  (finite (fstandard_deviation prec emax bessel xs) ->
     0 <= real (fvariance prec emax bessel xs) /\
     real (fstandard_deviation prec emax bessel xs) = nearest prec emax (R_sqrt.sqrt (real (fvariance prec emax bessel xs)))).
Proof.
  intros prec emax Hp He xs ys bessel Hem Hl Hn n u0 h P Q M. split_and!; intros Hf; apply sqrt_spec in Hf as (H1 & H2 & H3).
  - eexists. split_and!; [exact H2| |exact H3]. by apply squares_mean_error.
  - eexists. split_and!; [exact H2| |exact H3]. by apply mse_error'.
  - done.
Qed.
Print Assumptions C163_roots.
Example C163_roots_case : finite (frms 53 1024 [tenth; d 3]) /\ finite (frmse 53 1024 [tenth; d 3] [d 7; d 5]) /\
  finite (fstandard_deviation 53 1024 true [tenth; d 3]).
Proof. split_and!; by vm_compute. Qed.

(** nrmse_mean, nrmse_max_min and correlation are the numbers nearest to the quotients that define
    them, if those are finite and the divisors are not 0; the divisor of correlation is rounded. *)
Theorem C163_quotients : forall prec emax `{Prec_gt_0 prec, Prec_lt_emax prec emax} (xs ys : list (binary_float prec emax)) (bessel : bool),
  let spread := real (fmax_elem prec emax ys) - real (fmin_elem prec emax ys) in
  let deviations := nearest prec emax (real (fstandard_deviation prec emax bessel xs) * real (fstandard_deviation prec emax bessel ys)) in
  (finite (frmse prec emax xs ys) -> finite (fnrmse_mean prec emax xs ys) -> real (fmean prec emax ys) <> 0 ->
     real (fnrmse_mean prec emax xs ys) = nearest prec emax (real (frmse prec emax xs ys) / real (fmean prec emax ys))) /\
  (finite (frmse prec emax xs ys) -> finite (fnrmse_max_min prec emax xs ys) ->
   finite (fmax_elem prec emax ys) -> finite (fmin_elem prec emax ys) ->
   Rabs spread <= largest prec emax -> spread <> 0 ->
     real (fnrmse_max_min prec emax xs ys) = nearest prec emax (real (frmse prec emax xs ys) / nearest prec emax spread)) /\
  (finite (fcovariance prec emax bessel xs ys) -> finite (fcorrelation prec emax bessel xs ys) ->
   finite (fstandard_deviation prec emax bessel xs) -> finite (fstandard_deviation prec emax bessel ys) ->
   deviations <> 0 -> Rabs deviations <= largest prec emax ->
     real (fcorrelation prec emax bessel xs ys) = nearest prec emax (real (fcovariance prec emax bessel xs ys) / deviations)).
Proof.
  intros prec emax Hp He xs ys bessel spread deviations. split_and!.
  - intros. by apply div_value.
  - intros H1 H2 H3 H4 H5 H6. destruct (sub_in_range _ _ H3 H4 H5) as [G1 G2].
    unfold fnrmse_max_min. change (real (fdiv prec emax (frmse prec emax xs ys) (fmax_min prec emax ys)) =
      nearest prec emax (real (frmse prec emax xs ys) / nearest prec emax spread)).
    rewrite (nearest_rnd spread). unfold real in spread |- *. fold spread in G2.
    change (B2R (fmax_min prec emax ys) = round radix2 (SpecFloat.fexp prec emax) ZnearestE spread) in G2.
    rewrite <- G2. apply div_value; [done|done|]. rewrite G2. by apply sub_not_zero.
  - intros H1 H2 H3 H4 H5 H6. unfold fcorrelation in *. destruct (mul_in_range _ _ H3 H4 H6) as [G1 G2].
    change (B2R (fmul prec emax (fstandard_deviation prec emax bessel xs) (fstandard_deviation prec emax bessel ys)) = deviations) in G2.
    rewrite <- G2. apply div_value; [done|done|]. by rewrite G2.
Qed.
Print Assumptions C163_quotients.
Example C163_quotients_case : let xs := [d 1; d 3] in let ys := [d 7; d 5] in
  let spread := real (fmax_elem 53 1024 ys) - real (fmin_elem 53 1024 ys) in
  let deviations := nearest 53 1024 (real (fstandard_deviation 53 1024 false xs) * real (fstandard_deviation 53 1024 false ys)) in
  (finite (frmse 53 1024 xs ys) /\ finite (fnrmse_mean 53 1024 xs ys) /\ real (fmean 53 1024 ys) <> 0) /\
  (finite (fnrmse_max_min 53 1024 xs ys) /\ finite (fmax_elem 53 1024 ys) /\ finite (fmin_elem 53 1024 ys) /\
   Rabs spread <= largest 53 1024 /\ spread <> 0) /\
  (finite (fcovariance 53 1024 false xs ys) /\ finite (fcorrelation 53 1024 false xs ys) /\
   finite (fstandard_deviation 53 1024 false xs) /\ finite (fstandard_deviation 53 1024 false ys) /\
   deviations <> 0 /\ Rabs deviations <= largest 53 1024).
Proof.
  cbv zeta. split_and!; match goal with |- finite _ => by vm_compute | _ => idtac end.
  - apply Rgt_not_eq. change 0 with (real (d 0)). apply lt_finite; by vm_compute.
  - assert (real (d 5) <= real (fmin_elem 53 1024 [d 7; d 5])) as H1 by (apply le_finite; by vm_compute).
    assert (real (fmin_elem 53 1024 [d 7; d 5]) <= real (d 7)) as H2 by (apply le_finite; by vm_compute).
    assert (real (d 5) <= real (fmax_elem 53 1024 [d 7; d 5])) as H3 by (apply le_finite; by vm_compute).
    assert (real (fmax_elem 53 1024 [d 7; d 5]) <= real (d 7)) as H4 by (apply le_finite; by vm_compute).
    assert (Rabs (real (d 7)) <= largest 53 1024) as H5.
    { rewrite <- fhuge_value, fhuge_value. apply abs_B2R_le_emax_minus_prec. apply _. }
    unfold real in *. rewrite (of_Z_exact 7), (of_Z_exact 5) in * by lia. rewrite Rabs_pos_eq in H5 by lra.
    apply Rabs_le. lra.
  - apply Rgt_not_eq, Rgt_minus. apply lt_finite; by vm_compute.
  - rewrite nearest_rnd. change (real ?x) with (B2R x). rewrite <- mul_value by (by vm_compute).
    apply Rgt_not_eq. change 0 with (real (d 0)). apply lt_finite; by vm_compute.
  - rewrite nearest_rnd. change (real ?x) with (B2R x). rewrite <- mul_value by (by vm_compute).
    apply abs_B2R_le_emax_minus_prec. apply _.
Qed.

(** ** C164: remove_dc and linear_regression *)

(** remove_dc takes the mean from each element and rounds; the results add up to almost zero. *)
Theorem C164_remove_dc : forall prec emax `{Prec_gt_0 prec, Prec_lt_emax prec emax} (xs : list (binary_float prec emax)),
  let m := real (fmean prec emax xs) in
  length (fremove_dc prec emax xs) = length xs /\
  (all_finite (fremove_dc prec emax xs) ->
     map real (fremove_dc prec emax xs) = map (fun x => nearest prec emax (real x - m)) xs /\
     ((1 <= length xs)%nat ->
        Rabs (total (map real (fremove_dc prec emax xs))) <=
          unit_error prec * total (map (fun x => Rabs (real x - m)) xs) + INR (length xs) * Rabs (m - exact_mean xs))).
Proof.
  intros prec emax Hp He xs m. split; [apply map_length|]. intros Hf. split.
  - unfold fremove_dc in *. subst m. generalize dependent (fmean prec emax xs). intros m Hf.
    induction xs as [|x xs IH]; [done|]. cbn [map] in *. inversion_clear Hf as [|? ? H1 H2].
    f_equal; [by apply sub_value|by apply IH].
  - intros Hn. by apply remove_dc_residue.
Qed.
Print Assumptions C164_remove_dc.
Example C164_remove_dc_case : all_finite (fremove_dc 53 1024 [tenth; d 3; d (-7)]).
Proof. repeat constructor; by vm_compute. Qed.

(** False of the code: the results have the mean 0. *)
Theorem C164_remove_dc_refuted : exists xs : list dbl, all_finite (fremove_dc 53 1024 xs) /\
  flt_lt 53 1024 (fmean 53 1024 (fremove_dc 53 1024 xs)) (d 0) = true.
Proof. exists [tenth; tenth; tenth]. split; [repeat constructor; by vm_compute|]. by vm_compute. Qed.
Print Assumptions C164_remove_dc_refuted.

(** If linear_regression gives a finite slope, it is the number nearest to p / q where p and q are as
    close to the sums of products and squares of deviations as the roundings allow; a finite intercept
    is the mean of the second sequence less slope times mean of the first, rounded twice. *)
Theorem C164_linear_regression : forall prec emax `{Prec_gt_0 prec, Prec_lt_emax prec emax} (xs ys : list (binary_float prec emax)),
  length xs = length ys ->
  let slope := fst (flinear_regression prec emax xs ys) in
  let intercept := snd (flinear_regression prec emax xs ys) in
  let a := real (fmean prec emax xs) in
  let b := real (fmean prec emax ys) in
  let u := unit_error prec in
  let h := least_error prec emax in
  let P := (1 + u) ^ (length xs - 1) in
  (finite slope -> exists p q : binary_float prec emax, finite p /\ slope = fdiv prec emax p q /\
     Rabs (real p - total (products a b xs ys)) <=
       (P * (1 + u) ^ 3 - 1) * total (map Rabs (products a b xs ys)) + P * (INR (length xs) * h) /\
     (finite q -> Rabs (real q - total (products a a xs xs)) <=
       (P * (1 + u) ^ 3 - 1) * total (products a a xs xs) + P * (INR (length xs) * h)) /\
     (real q <> 0 -> real slope = nearest prec emax (real p / real q))) /\
  (finite intercept -> finite slope /\ real intercept = nearest prec emax (b - nearest prec emax (real slope * a))).
Proof.
  intros prec emax Hp He xs ys Hl slope intercept a b u0 h P. split.
  - intros Hf. destruct (regression_sums xs ys Hl Hf) as (p & q & H1 & H2 & H3 & H4). exists p, q.
    split_and!; [done|done|exact H3|exact H4|]. intros Hq. unfold slope in *. rewrite H2 in Hf |- *. by apply div_value.
  - intros Hf. change intercept with (fsub prec emax (fmean prec emax ys) (fmul prec emax slope (fmean prec emax xs))) in *.
    destruct (sub_finite_inv _ _ Hf) as [_ H2]. split; [by apply (mul_finite_inv _ _ H2)|].
    unfold real. rewrite (sub_value _ _ Hf), (mul_value _ _ H2). done.
Qed.
Print Assumptions C164_linear_regression.
Example C164_linear_regression_case :
  let r := flinear_regression 53 1024 [d 1; d 2; d 4] [d 3; d 5; d 9] in
  finite (fst r) /\ finite (snd r) /\ fis_approx 53 1024 (fst r) (d 2) = true /\ fis_approx 53 1024 (snd r) (d 1) = true.
Proof. cbv zeta. split_and!; by vm_compute. Qed.

(** False of the code: the results are numbers if the elements are. One point gives NaNs. And equal
    abscissas, which lie on no such line, can give a slope. *)
Theorem C164_regression_refuted :
  (forall prec emax `{Prec_gt_0 prec, Prec_lt_emax prec emax} (x y : binary_float prec emax), (64 < emax)%Z -> finite x -> finite y ->
     not_a_number (fst (flinear_regression prec emax [x] [y])) /\ not_a_number (snd (flinear_regression prec emax [x] [y]))) /\
  (exists (x : dbl) ys, finite x /\ all_finite ys /\ finite (fst (flinear_regression 53 1024 [x; x; x] ys)) /\
     finite (snd (flinear_regression 53 1024 [x; x; x] ys))).
Proof.
  split.
  - intros prec emax Hp He x y Hem Hx Hy. rewrite (regression_one x y Hem Hx Hy). done.
  - exists tenth, [d 1; d 2; d 3]. split_and!; [by vm_compute|repeat constructor; by vm_compute| |]; by vm_compute.
Qed.
Print Assumptions C164_regression_refuted.
