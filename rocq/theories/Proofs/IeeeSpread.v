(** Errors of variance, covariance, roots, remove_dc and linear_regression in IEEE 754 arithmetic. *)
From Coq Require Import Reals Lra.
From Flocq Require Import Core BinarySingleNaN.
From Verif Require Import Base.Cpp Model.Numeric Model.Ieee Spec.IeeeSpec.
From Verif Require Import Proofs.IeeeProofs Proofs.IeeeOrder Proofs.IeeeError Proofs.IeeeStats.
Local Open Scope R_scope.

Section ieee.
Context {prec emax : Z} {Hprec : Prec_gt_0 prec} {Hemax : Prec_lt_emax prec emax}.
Notation flt := (binary_float prec emax).
Notation fexp := (SpecFloat.fexp prec emax).
Notation emin := (SpecFloat.emin prec emax).
Notation rnd := (round radix2 fexp ZnearestE).
Notation big := (bpow radix2 emax).
Notation add := (fadd prec emax).
Notation sub := (fsub prec emax).
Notation mul := (fmul prec emax).
Notation div := (fdiv prec emax).
Notation sqr := (fsqrt prec emax).
Notation zero := (fzero prec emax).
Notation u := (@u prec).
Notation eta := (@eta prec emax).
Notation tsum Ts := (fold_right Rplus 0 Ts).
Notation tabs Ts := (fold_right Rplus 0 (map Rabs Ts)).

(** ** Exact sums of products *)
Lemma sum_shift (xs ys : list flt) a b a' b' : length xs = length ys ->
  tsum (zip_with (fun x y : flt => (B2R x - a) * (B2R y - b)) xs ys) =
  tsum (zip_with (fun x y : flt => (B2R x - a') * (B2R y - b')) xs ys)
  + (a' - a) * (tsum (map B2R ys) - INR (length ys) * b')
  + (b' - b) * (tsum (map B2R xs) - INR (length xs) * a')
  + INR (length xs) * ((a' - a) * (b' - b)).
Proof.
  revert ys. induction xs as [|x xs IH]; intros [|y ys] Hl; try done.
  - cbn. lra.
  - cbn [zip_with map fold_right length]. rewrite !S_INR, IH by (by injection Hl).
    assert (INR (length ys) = INR (length xs)) as -> by (f_equal; by injection Hl). ring.
Qed.

Lemma mean_residue (xs : list flt) : (1 <= length xs)%nat -> tsum (map B2R xs) - INR (length xs) * exact_mean xs = 0.
Proof. intros H. unfold exact_mean. change (total (map real xs)) with (tsum (map B2R xs)). field. apply Rgt_not_eq, lt_0_INR. lia. Qed.

Lemma sum_at_mean (xs ys : list flt) a b : length xs = length ys -> (1 <= length xs)%nat ->
  tsum (zip_with (fun x y : flt => (B2R x - a) * (B2R y - b)) xs ys) =
  tsum (zip_with (fun x y : flt => (B2R x - exact_mean xs) * (B2R y - exact_mean ys)) xs ys)
  + INR (length xs) * ((a - exact_mean xs) * (b - exact_mean ys)).
Proof.
  intros Hl Hn. rewrite (sum_shift xs ys a b (exact_mean xs) (exact_mean ys)) by done.
  rewrite !mean_residue by (rewrite <- ?Hl; done). ring.
Qed.

(** ** Covariance *)
Definition count (bessel : bool) (n : nat) : nat := if bessel then (n - 1)%nat else n.
Lemma divisor_size (bessel : bool) n : (1 <= Z.of_nat n < 2 ^ 64)%Z ->
  fdivisor prec emax bessel n = fof_size prec emax (count bessel n).
Proof.
  intros Hn. unfold fdivisor, count. destruct bessel; [|done]. unfold fof_size_minus_1, fof_size. f_equal.
  replace (Z.of_nat (n - 1)) with (Z.of_nat n - 1)%Z by lia. unfold conv, lo. cbn [bits signed].
  rewrite Z.mod_small; lia.
Qed.
Lemma count_unit k : length_unit (prec := prec) (count_error prec k) k.
Proof. unfold length_unit, count_error. destruct (decide _); [by right|by left]. Qed.

Lemma sub_finite_inv (x a : flt) : finite (sub x a) -> finite x /\ finite a.
Proof. by destruct x as [|[]| |], a as [|[]| |]. Qed.
Lemma mul_finite_inv (x a : flt) : finite (mul x a) -> finite x /\ finite a.
Proof. by destruct x as [|[]| |], a as [|[]| |]. Qed.

Lemma products_finite (xs ys : list flt) a b : length xs = length ys -> (1 <= length xs)%nat ->
  Forall (fun t => finite t) (zip_with (fun x y => mul (sub x a) (sub y b)) xs ys) ->
  all_finite xs /\ all_finite ys /\ finite a /\ finite b.
Proof.
  intros Hl Hn H.
  assert (Forall (fun x => finite x /\ finite a) xs /\ Forall (fun y => finite y /\ finite b) ys) as [Hx Hy].
  { clear Hn. revert ys Hl H. induction xs as [|x xs IH]; intros [|y ys] Hl H; try done.
    cbn in H. inversion_clear H as [|? ? H1 H2]. apply mul_finite_inv in H1 as [H1 H3].
    destruct (IH ys ltac:(by injection Hl) H2) as [H4 H5].
    split; constructor; [by apply sub_finite_inv|done|by apply sub_finite_inv|done]. }
  split_and!.
  - apply (Forall_impl _ _ _ Hx). by intros ? [].
  - apply (Forall_impl _ _ _ Hy). by intros ? [].
  - destruct xs; [cbn in Hn; lia|]. by inversion_clear Hx as [|? ? []].
  - destruct xs, ys; try done; [cbn in Hn; lia|]. by inversion_clear Hy as [|? ? []].
Qed.

Lemma covariance_error (bessel : bool) (xs ys : list flt) : (64 < emax)%Z -> length xs = length ys ->
  ((if bessel then 2 else 1) <= Z.of_nat (length xs) < 2 ^ 64)%Z -> finite (fcovariance prec emax bessel xs ys) ->
  let k := count bessel (length xs) in
  let a := B2R (fmean prec emax xs) in let b := B2R (fmean prec emax ys) in
  let n := INR (length xs) in
  let P := (1 + u) ^ length xs / (1 - count_error prec k) in
  (all_finite xs /\ all_finite ys /\ finite (fmean prec emax xs) /\ finite (fmean prec emax ys)) /\
  Rabs (B2R (fcovariance prec emax bessel xs ys) - total (products (exact_mean xs) (exact_mean ys) xs ys) / INR k) <=
    (P * (1 + u) ^ 3 - 1) * (total (map Rabs (products a b xs ys)) / INR k)
    + n / INR k * Rabs ((a - exact_mean xs) * (b - exact_mean ys)) + P * (n / INR k * eta) + eta.
Proof.
  intros He Hl Hn Hf k a b n P.
  assert (1 <= Z.of_nat (length xs) < 2 ^ 64)%Z as Hn1 by (destruct bessel; lia).
  assert (1 <= Z.of_nat k < 2 ^ 64)%Z as Hk by (unfold k, count; destruct bessel; lia).
  set (ts := zip_with (fun x y => mul (sub x (fmean prec emax xs)) (sub y (fmean prec emax ys))) xs ys).
  assert (fcovariance prec emax bessel xs ys = quotient ts k) as E.
  { unfold fcovariance, quotient. rewrite divisor_size by done. done. }
  rewrite E in Hf |- *. clear E. pose proof (quotient_finite_inv _ _ Hf) as Hs.
  destruct (fold_finite_inv _ _ Hs) as [_ Hts].
  assert (length ts = length xs) as El by (by apply zip_with_length_l_eq).
  split; [eapply products_finite; [done| |exact Hts]; lia|].
  pose proof (near_zip _ (fun x y : flt => (B2R x - a) * (B2R y - b)) _ _ xs ys
    (fun x y H => product_near x y (fmean prec emax xs) (fmean prec emax ys) H) Hts) as Hnear.
  fold ts in Hnear. change (zip_with (fun x y : flt => (B2R x - a) * (B2R y - b)) xs ys) with (products a b xs ys) in Hnear.
  assert (1 <= length ts)%nat as Hlt by lia.
  pose proof (quotient_near _ _ _ _ _ k He Hlt Hk (count_unit k) Hnear Hf) as H. rewrite El in H. fold P n in H.
  assert (total (products a b xs ys) = total (products (exact_mean xs) (exact_mean ys) xs ys)
    + n * ((a - exact_mean xs) * (b - exact_mean ys))) as Esum by (apply sum_at_mean; [done|lia]).
  change (tsum (products a b xs ys)) with (total (products a b xs ys)) in H. rewrite Esum in H.
  set (C := total (products (exact_mean xs) (exact_mean ys) xs ys)) in *.
  set (D := (a - exact_mean xs) * (b - exact_mean ys)) in *.
  assert (0 < INR k) as HN by (apply lt_0_INR; lia).
  replace (B2R (quotient ts k) - C / INR k) with ((B2R (quotient ts k) - (C + n * D) / INR k) + n / INR k * D) by (field; lra).
  eapply Rle_trans; [apply Rabs_triang|]. rewrite (Rabs_mult (n / INR k)).
  rewrite (Rabs_pos_eq (n / INR k)).
  - replace (P * (1 + u) ^ 3 - 1) with (P * (1 + ((1 + u) ^ 3 - 1)) - 1) by ring.
    change (total (map Rabs (products a b xs ys))) with (tabs (products a b xs ys)). lra.
  - unfold Rdiv. apply Rmult_le_pos; [apply pos_INR|]. apply Rlt_le. by apply Rinv_0_lt_compat.
Qed.

(** ** Variance *)
Lemma variance_covariance bessel (xs : list flt) : fcovariance prec emax bessel xs xs = fvariance prec emax bessel xs.
Proof. unfold fcovariance, fvariance. do 2 f_equal. by rewrite zip_with_self. Qed.

Lemma abs_squares (a : R) (xs : list flt) : map Rabs (products a a xs xs) = products a a xs xs.
Proof.
  unfold products. rewrite zip_with_self, map_map. apply map_ext. intros x. apply Rabs_pos_eq.
  apply Rle_0_sqr.
Qed.

Lemma variance_error (bessel : bool) (xs : list flt) : (64 < emax)%Z ->
  ((if bessel then 2 else 1) <= Z.of_nat (length xs) < 2 ^ 64)%Z -> finite (fvariance prec emax bessel xs) ->
  let k := count bessel (length xs) in
  let r := INR (length xs) / INR k in
  let P := (1 + u) ^ length xs / (1 - count_error prec k) in
  let V := total (products (exact_mean xs) (exact_mean xs) xs xs) / INR k in
  let D := (B2R (fmean prec emax xs) - exact_mean xs) ^ 2 in
  (all_finite xs /\ finite (fmean prec emax xs)) /\
  Rabs (B2R (fvariance prec emax bessel xs) - V) <= (P * (1 + u) ^ 3 - 1) * V + P * (1 + u) ^ 3 * (r * D) + P * (r * eta) + eta.
Proof.
  intros He Hn Hf k r P V D. rewrite <- variance_covariance in Hf |- *.
  destruct (covariance_error bessel xs xs He eq_refl Hn Hf) as [(H1 & _ & H2 & _) H].
  split; [done|]. fold k P in H. rewrite abs_squares in H.
  assert (1 <= Z.of_nat k)%Z as Hk by (unfold k, count; destruct bessel; lia).
  assert (0 < INR k) as HN by (apply lt_0_INR; lia).
  set (a := B2R (fmean prec emax xs)) in *.
  assert (total (products a a xs xs) = total (products (exact_mean xs) (exact_mean xs) xs xs)
    + INR (length xs) * ((a - exact_mean xs) * (a - exact_mean xs))) as Esum by (apply sum_at_mean; [done|destruct bessel; lia]).
  rewrite Esum in H.
  rewrite (Rabs_pos_eq ((a - exact_mean xs) * (a - exact_mean xs))) in H by apply Rle_0_sqr.
  eapply Rle_trans; [exact H|]. right. unfold r, V, D. field. lra.
Qed.

(** ** Roots *)
Lemma sqrt_spec (x : flt) : finite (sqr x) -> finite x /\ 0 <= B2R x /\ B2R (sqr x) = rnd (R_sqrt.sqrt (B2R x)).
Proof.
  intros Hf. destruct (Bsqrt_correct prec emax Hprec Hemax mode_NE x) as (G1 & G2 & G3).
  unfold fsqrt in *. change (round_mode mode_NE) with ZnearestE in G1. split_and!; [| |exact G1].
  - by destruct x as [|[]| |].
  - unfold finite in Hf. rewrite G2 in Hf. destruct x as [|[]| |[]]; try done; cbn; try lra. apply F2R_ge_0. cbn. lia.
Qed.

Lemma squares_mean_error (xs : list flt) : (64 < emax)%Z -> (1 <= Z.of_nat (length xs) < 2 ^ 64)%Z ->
  finite (fmean prec emax (map (fsquare prec emax) xs)) ->
  let Q := total (map (fun x => real x ^ 2) xs) / INR (length xs) in
  let P := (1 + u) ^ length xs / (1 - count_error prec (length xs)) in
  Rabs (B2R (fmean prec emax (map (fsquare prec emax) xs)) - Q) <= (P * (1 + u) - 1) * Q + P * eta + eta.
Proof.
  intros He Hn Hf Q P. change (fmean prec emax (map (fsquare prec emax) xs))
    with (quotient (map (fsquare prec emax) xs) (length (map (fsquare prec emax) xs))) in Hf |- *.
  rewrite map_length in Hf |- *.
  pose proof (quotient_finite_inv _ _ Hf) as Hs. destruct (fold_finite_inv _ _ Hs) as [_ Hts].
  pose proof (near_map _ (fun x : flt => B2R x ^ 2) _ _ xs square_near Hts) as Hnear.
  assert (1 <= length (map (fsquare prec emax) xs))%nat as Hl by (rewrite map_length; lia).
  pose proof (quotient_near _ _ _ _ _ (length xs) He Hl Hn (count_unit (length xs)) Hnear Hf) as H.
  rewrite map_length in H. fold P in H. rewrite tabs_tsum in H.
  - assert (0 < INR (length xs)) as HN by (apply lt_0_INR; lia).
    change (total (map (fun x => real x ^ 2) xs)) with (tsum (map (fun x : flt => B2R x ^ 2) xs)) in Q.
    fold Q in H. replace (INR (length xs) / INR (length xs)) with 1 in H by (field; lra).
    replace (1 + (1 + u - 1)) with (1 + u) in H by ring. rewrite Rmult_1_l in H. exact H.
  - apply Forall_fmap, Forall_forall. intros x _. apply pow2_ge_0.
Qed.
Lemma mse_error' (xs ys : list flt) : (64 < emax)%Z -> length xs = length ys -> (1 <= Z.of_nat (length xs) < 2 ^ 64)%Z ->
  finite (fmse prec emax xs ys) ->
  let M := total (zip_with (fun x y : flt => (real x - real y) ^ 2) xs ys) / INR (length xs) in
  let P := (1 + u) ^ length xs / (1 - count_error prec (length xs)) in
  Rabs (B2R (fmse prec emax xs ys) - M) <= (P * (1 + u) ^ 3 - 1) * M + P * eta + eta.
Proof.
  intros He Hl Hn Hf M P.
  assert (length (zip_with (fsquare_error prec emax) xs ys) = length xs) as El by (by apply zip_with_length_l_eq).
  assert (fmse prec emax xs ys = quotient (zip_with (fsquare_error prec emax) xs ys) (length xs)) as E.
  { unfold fmse, fmean. by rewrite El. }
  rewrite E in Hf |- *.
  pose proof (quotient_squares _ xs ys (length xs) He Hl ltac:(lia) Hn (count_unit _) Hf) as H. cbv zeta in H. fold P in H.
  assert (0 < INR (length xs)) as HN by (apply lt_0_INR; lia).
  replace (INR (length xs) / INR (length xs)) with 1 in H by (field; lra). rewrite Rmult_1_l in H.
  rewrite <- pow_add_3 in H by (eapply unit_lt_1, count_unit). fold P in H.
  replace (1 + ((1 + u) ^ 3 - 1)) with ((1 + u) ^ 3) in H by ring. exact H.
Qed.

(** ** remove_dc *)
Lemma sub_value (x a : flt) : finite (sub x a) -> B2R (sub x a) = rnd (B2R x - B2R a).
Proof.
  intros Hf. destruct (sub_finite_inv _ _ Hf) as [Hx Ha].
  destruct (fsub_spec x a Hx Ha) as [(_ & Hv & _)|[E _]]; [done|by rewrite E in Hf].
Qed.
Lemma remove_dc_residue (xs : list flt) : (1 <= length xs)%nat -> all_finite (fremove_dc prec emax xs) ->
  let m := B2R (fmean prec emax xs) in
  Rabs (total (map real (fremove_dc prec emax xs))) <=
    u * total (map (fun x => Rabs (real x - m)) xs) + INR (length xs) * Rabs (m - exact_mean xs).
Proof.
  intros Hn Hf m0. unfold fremove_dc in *. subst m0. set (a := fmean prec emax xs) in *. set (m := B2R a).
  assert (forall xs : list flt, all_finite (map (fun x => sub x a) xs) ->
    Rabs (total (map real (map (fun x => sub x a) xs)) - (total (map real xs) - INR (length xs) * m))
    <= u * total (map (fun x => Rabs (real x - m)) xs)) as Hind.
  { clearbody a. clear. intros xs. induction xs as [|x xs IH]; intros Hf.
    - cbn. rewrite Rmult_0_l, !Rminus_0_r, Rabs_R0. lra.
    - cbn [map] in *. inversion_clear Hf as [|? ? H1 H2]. specialize (IH H2). unfold total in *. cbn [fold_right length].
      rewrite S_INR. unfold real in *. rewrite (sub_value x a H1).
      destruct (rnd_minus_error x a) as (e & He & ->). fold m.
      set (T := fold_right Rplus 0 (map B2R (map (fun x0 => sub x0 a) xs))) in *.
      set (T' := fold_right Rplus 0 (map B2R xs)) in *.
      replace ((B2R x - m) * (1 + e) + T - (B2R x + T' - (INR (length xs) + 1) * m))
        with ((B2R x - m) * e + (T - (T' - INR (length xs) * m))) by ring.
      eapply Rle_trans; [apply Rabs_triang|]. rewrite Rmult_plus_distr_l. apply Rplus_le_compat; [|exact IH].
      rewrite Rabs_mult, (Rmult_comm u). apply Rmult_le_compat_l; [apply Rabs_pos|done]. }
  specialize (Hind xs Hf). pose proof (mean_residue xs Hn) as Hr.
  set (T := total (map real (map (fun x => sub x a) xs))) in *.
  change (tsum (map B2R xs)) with (total (map real xs)) in Hr.
  replace T with ((T - (total (map real xs) - INR (length xs) * m)) + INR (length xs) * (exact_mean xs - m)) by lra.
  eapply Rle_trans; [apply Rabs_triang|]. apply Rplus_le_compat; [exact Hind|].
  rewrite Rabs_mult, (Rabs_pos_eq (INR _)) by apply pos_INR. rewrite (Rabs_minus_sym m). lra.
Qed.

(** ** linear_regression *)
Lemma regression_sums (xs ys : list flt) : length xs = length ys ->
  finite (fst (flinear_regression prec emax xs ys)) ->
  let a := B2R (fmean prec emax xs) in let b := B2R (fmean prec emax ys) in
  exists p q : flt, finite p /\
    fst (flinear_regression prec emax xs ys) = div p q /\
    Rabs (B2R p - total (products a b xs ys)) <=
      ((1 + u) ^ (length xs - 1) * (1 + u) ^ 3 - 1) * total (map Rabs (products a b xs ys))
      + (1 + u) ^ (length xs - 1) * (INR (length xs) * eta) /\
    (finite q -> Rabs (B2R q - total (products a a xs xs)) <=
      ((1 + u) ^ (length xs - 1) * (1 + u) ^ 3 - 1) * total (products a a xs xs)
      + (1 + u) ^ (length xs - 1) * (INR (length xs) * eta)).
Proof.
  intros Hl Hf a b. unfold flinear_regression in *. cbn [fst] in *.
  set (ma := fmean prec emax xs) in *. set (mb := fmean prec emax ys) in *.
  set (ts := zip_with mul (map (fun x => sub x ma) xs) (map (fun y => sub y mb) ys)) in *.
  set (qs := map (fsquare prec emax) (map (fun x => sub x ma) xs)) in *.
  exists (fsum prec emax ts), (fsum prec emax qs).
  assert (ts = zip_with (fun x y => mul (sub x ma) (sub y mb)) xs ys) as Ets.
  { unfold ts. clear -ma mb. clearbody ma mb. revert ys. induction xs as [|x xs IH]; intros [|y ys]; cbn; try done. by rewrite IH. }
  assert (qs = zip_with (fun x y => mul (sub x ma) (sub y ma)) xs xs) as Eqs.
  { unfold qs. rewrite zip_with_self, map_map. done. }
  assert (length ts = length xs) as El by (rewrite Ets; by apply zip_with_length_l_eq).
  assert (length qs = length xs) as Eq by (unfold qs; by rewrite !map_length).
  assert (finite (fsum prec emax ts)) as Hp.
  { unfold fdiv in Hf. by destruct (fsum prec emax ts) as [|[]| |], (fsum prec emax qs) as [|[]| |]. }
  split_and!; [done|done| |].
  - destruct (fold_finite_inv _ _ Hp) as [_ Hts]. rewrite Ets in Hts.
    pose proof (near_zip _ (fun x y : flt => (B2R x - a) * (B2R y - b)) _ _ xs ys
      (fun x y H => product_near x y ma mb H) Hts) as Hnear. rewrite <- Ets in Hnear.
    pose proof (sum_near _ _ _ _ Hnear Hp) as H. rewrite El in H.
    replace (1 + ((1 + u) ^ 3 - 1)) with ((1 + u) ^ 3) in H by ring. exact H.
  - intros Hq. destruct (fold_finite_inv _ _ Hq) as [_ Hqs]. rewrite Eqs in Hqs.
    pose proof (near_zip _ (fun x y : flt => (B2R x - a) * (B2R y - a)) _ _ xs xs
      (fun x y H => product_near x y ma ma H) Hqs) as Hnear. rewrite <- Eqs in Hnear.
    pose proof (sum_near _ _ _ _ Hnear Hq) as H. rewrite Eq in H.
    replace (1 + ((1 + u) ^ 3 - 1)) with ((1 + u) ^ 3) in H by ring.
    change (zip_with (fun x y : flt => (B2R x - a) * (B2R y - a)) xs xs) with (products a a xs xs) in H.
    rewrite abs_squares in H. exact H.
Qed.

Lemma div_value (x y : flt) : finite (div x y) -> finite x -> B2R y <> 0 -> B2R (div x y) = rnd (B2R x / B2R y).
Proof. intros Hf Hx Hy. destruct (fdiv_spec x y Hx Hy) as [(_ & Hv & _)|[E _]]; [done|by rewrite E in Hf]. Qed.
Lemma mul_value (x y : flt) : finite (mul x y) -> B2R (mul x y) = rnd (B2R x * B2R y).
Proof.
  intros Hf. destruct (mul_finite_inv _ _ Hf) as [Hx Hy].
  destruct (fmul_spec x y Hx Hy) as [(_ & Hv & _)|[E _]]; [done|by rewrite E in Hf].
Qed.
Lemma regression_one (x y : flt) : (64 < emax)%Z -> finite x -> finite y ->
  flinear_regression prec emax [x] [y] = (B754_nan, B754_nan).
Proof.
  intros He Hx Hy. unfold flinear_regression.
  destruct (mean_one x He Hx) as [H1 H2]. destruct (mean_one y He Hy) as [H3 H4].
  destruct (sub_equal x (fmean prec emax [x]) Hx H1 (eq_sym H2)) as [G1 G2].
  destruct (sub_equal y (fmean prec emax [y]) Hy H3 (eq_sym H4)) as [G3 G4].
  destruct (zero_value _ G1 G2) as [s E]. destruct (zero_value _ G3 G4) as [s' E'].
  cbn [map zip_with]. rewrite E, E'. unfold fsum. cbn [fold_left map].
  assert (div (add zero (mul (B754_zero s) (B754_zero s'))) (add zero (fsquare prec emax (B754_zero s))) = B754_nan) as ->
    by (by destruct s, s'). f_equal. by destruct (fmean prec emax [y]).
Qed.

(** ** Ranges *)
Lemma sub_in_range (x y : flt) : finite x -> finite y -> Rabs (B2R x - B2R y) <= largest prec emax ->
  finite (sub x y) /\ B2R (sub x y) = rnd (B2R x - B2R y).
Proof.
  intros Hx Hy Hb. rewrite <- fhuge_value in Hb. pose proof (rnd_in_range _ Hb) as H. pose proof (fhuge_lt (prec := prec) (emax := emax)) as Hh.
  destruct (fsub_spec x y Hx Hy) as [(H1 & H2 & _)|[_ H2]]; [done|lra].
Qed.
Lemma mul_in_range (x y : flt) : finite x -> finite y -> Rabs (rnd (B2R x * B2R y)) <= largest prec emax ->
  finite (mul x y) /\ B2R (mul x y) = rnd (B2R x * B2R y).
Proof.
  intros Hx Hy Hb. rewrite <- fhuge_value in Hb. pose proof (fhuge_lt (prec := prec) (emax := emax)) as Hh.
  destruct (fmul_spec x y Hx Hy) as [(H1 & H2 & _)|[_ H2]]; [done|lra].
Qed.
Lemma sub_not_zero (x y : flt) : B2R x - B2R y <> 0 -> rnd (B2R x - B2R y) <> 0.
Proof.
  intros H E. destruct (rnd_minus_error x y) as (e & He & Hr). rewrite Hr in E.
  apply Rmult_integral in E as [E|E]; [done|]. pose proof (u_lt_1 (prec := prec)).
  unfold Rabs in He. destruct (Rcase_abs e); lra.
Qed.

Lemma tiny_at_most (x : flt) : x = B754_infinity false \/ finite x /\ least_normal emax <= B2R x ->
  flt_le prec emax (ftiny prec emax) x = true.
Proof.
  destruct (tiny_spec (prec := prec) (emax := emax)) as [T1 T2]. intros [->|[Hx Hl]].
  - apply le_pinf. by apply fin_not_nan.
  - apply le_finite; [done|done|]. rewrite T2. exact Hl.
Qed.
Lemma at_most_huge (x : flt) : is_nan x = false -> x <> B754_infinity false -> flt_le prec emax x (fhuge prec emax) = true.
Proof.
  intros Hn Hi. destruct (is_finite x) eqn:Hf.
  - apply le_finite; [done|done|]. eapply Rle_trans; [apply Rle_abs|]. rewrite fhuge_value. apply abs_B2R_le_emax_minus_prec. apply _.
  - destruct x as [|[]| |]; try done.
Qed.
End ieee.
