(** Properties of the statistics and regression functions in exact arithmetic. *)
From Coq Require Import Reals Lra.
From Verif Require Import Base.Cpp Model.Numeric Model.Scientific Spec.NumericSpec Spec.ScientificSpec.
From Verif Require Import Proofs.NumericProofs Proofs.ScientificProofs.
Local Open Scope R_scope.

(** A sequence of real numbers. *)
Notation lift := (map (@Some R)).

(** ** C61: extreme elements of floating-point sequences *)

(** min_elem; max_elem if some element is at least the least positive normalised number. *)
Theorem C61_extremes_partial : forall tiny huge xs, (forall x, x ∈ xs -> - huge <= x <= huge) ->
  (xs <> [] -> min_elem_float huge xs ∈ xs /\ forall x, x ∈ xs -> min_elem_float huge xs <= x) /\
  ((exists x, x ∈ xs /\ tiny <= x) ->
     max_elem_float tiny xs ∈ xs /\ forall x, x ∈ xs -> x <= max_elem_float tiny xs).
Proof.
  intros tiny huge xs Hr. split.
  - intros Hne. destruct xs as [|x xs]; [done|]. assert (x ∈ x :: xs) as Hx by set_solver.
    destruct (min_elem_ok Rltb R_order huge (x :: xs) x Hx) as [H1 H2]; [apply R_at_most; apply Hr, Hx|].
    split; [done|]. intros y Hy. by apply R_at_most, H2.
  - intros (x & Hx & Ht). destruct (max_elem_ok Rltb R_order tiny xs x Hx) as [H1 H2]; [by apply R_at_most|].
    split; [done|]. intros y Hy. by apply R_at_most, H2.
Qed.
Print Assumptions C61_extremes_partial.
Example C61_extremes_partial_case : (exists x, x ∈ [-2; 3] /\ / 1000 <= x) /\ (forall x, x ∈ [-2; 3] -> - 5 <= x <= 5).
Proof.
  split; [exists 3; split; [set_solver|lra]|].
  intros x Hx. apply elem_of_cons in Hx as [->|Hx]; [lra|]. apply elem_of_list_singleton in Hx as ->. lra.
Qed.

(** False of the code otherwise, always: if every element is smaller, in particular if all are
    negative or zero, max_elem returns the least positive number, which is not in the sequence. *)
Theorem C61_max_elem_refuted : forall tiny xs, 0 < tiny -> (forall x, x ∈ xs -> x < tiny) ->
  max_elem_float tiny xs = tiny /\ tiny ∉ xs /\ forall x, x ∈ xs -> x < max_elem_float tiny xs.
Proof.
  intros tiny xs Ht Hx. destruct (max_elem_start Rltb R_order tiny xs) as [H1 H2].
  { intros x Hin. apply Rltb_lt. by apply Hx. }
  unfold max_elem_float. rewrite H1. done.
Qed.
Print Assumptions C61_max_elem_refuted.
Example C61_max_elem_refuted_case : forall x, x ∈ [-2; -3] -> x < / 1000.
Proof. intros x Hx. apply elem_of_cons in Hx as [->|Hx]; [lra|]. apply elem_of_list_singleton in Hx as ->. lra. Qed.

(** ** C64: statistics *)

(** The sample used below: not constant, of mean 2. *)
Definition sample : list R := [1; 3; 2].
Lemma sample_varied : ~ constant sample.
Proof. intros H. assert (1 = 3) by (apply H; set_solver). lra. Qed.
Lemma sample_enough b : enough b (length sample).
Proof. destruct b; split; simpl; lia. Qed.
Lemma sample_average : average sample = 2.
Proof. unfold average, Rsum. simpl. lra. Qed.

Theorem C64_mean_errors : forall xs ys, xs <> [] -> length xs = length ys ->
  mean (lift xs) = Some (average xs) /\
  rms (lift xs) = Some (R_sqrt.sqrt (Rsum (map Rsqr xs) / INR (length xs))) /\
  let errors := zip_with (fun x y => Rsqr (x - y)) xs ys in
  sse (lift xs) (lift ys) = Some (Rsum errors) /\
  mse (lift xs) (lift ys) = Some (Rsum errors / INR (length xs)) /\
  rmse (lift xs) (lift ys) = Some (R_sqrt.sqrt (Rsum errors / INR (length xs))).
Proof.
  intros xs ys Hne Hl. cbv zeta. split_and!; [by apply mean_ok|by apply rms_ok|apply sse_ok|by apply mse_ok|by apply rmse_ok].
Qed.
Print Assumptions C64_mean_errors.
Example C64_mean_errors_case : mean (lift sample) = Some 2 /\ sse (lift sample) (lift [1; 1; 1]) = Some 5.
Proof.
  split.
  - rewrite mean_ok by done. by rewrite sample_average.
  - rewrite sse_ok. unfold Rsum, Rsqr. simpl. f_equal. lra.
Qed.

(** The mean is the number with the least sum of squared distances to the data. *)
Theorem C64_mean_best : forall xs, xs <> [] ->
  exists m, mean (lift xs) = Some m /\
  forall c, Rsum (map (fun x => Rsqr (x - m)) xs) <= Rsum (map (fun x => Rsqr (x - c)) xs) /\
    (Rsum (map (fun x => Rsqr (x - c)) xs) = Rsum (map (fun x => Rsqr (x - m)) xs) -> c = m).
Proof.
  intros xs Hne. exists (average xs). split; [by apply mean_ok|]. intros c.
  assert (Rsum (map (fun x => Rsqr (x - c)) xs) = Rsum (map (fun x => Rsqr (x - average xs)) xs)
          + INR (length xs) * Rsqr (average xs - c)) as E.
  { change (S_ (fun x => Rsqr (x - c)) xs = S_ (fun x => Rsqr (x - average xs)) xs + INR (length xs) * Rsqr (average xs - c)).
    rewrite (S_ext _ (fun x => Rsqr (x - average xs) + 2 * (average xs - c) * (x - average xs) + Rsqr (average xs - c)))
      by (intros; unfold Rsqr; ring).
    rewrite !S_plus, S_scal, S_const, dev_zero by done. ring. }
  pose proof (len_pos xs Hne). pose proof (Rle_0_sqr (average xs - c)).
  assert (0 <= INR (length xs) * Rsqr (average xs - c)) by (apply Rmult_le_pos; lra). split; [lra|].
  intros H2. assert (INR (length xs) * Rsqr (average xs - c) = 0) as Z by lra.
  apply Rmult_integral in Z as [Z|Z]; [lra|]. apply Rsqr_0_uniq in Z. lra.
Qed.
Print Assumptions C64_mean_best.
Example C64_mean_best_case : sample <> [] /\ mean (lift sample) = Some 2.
Proof. split; [done|]. rewrite mean_ok by done. by rewrite sample_average. Qed.

Theorem C64_variance : forall bessel xs, enough bessel (length xs) ->
  exists v, variance bessel (lift xs) = Some v /\ v = sq_dev xs / divisor bessel (length xs) /\
    standard_deviation bessel (lift xs) = Some (R_sqrt.sqrt v) /\
    0 <= v /\ (v = 0 <-> constant xs).
Proof.
  intros b xs H. eexists. split; [by apply variance_ok|]. split; [done|]. split; [by apply std_ok|].
  pose proof (divisor_pos b _ H) as Hd. pose proof (sq_dev_ge0 xs).
  split; [by apply Rdiv_ge0|]. rewrite <- sq_dev_zero. split.
  - intros E. apply Rmult_integral in E as [E|E]; [done|].
    assert (/ divisor b (length xs) <> 0) by (apply Rinv_neq_0_compat; lra). done.
  - intros ->. lra.
Qed.
Print Assumptions C64_variance.
Example C64_variance_case : enough true (length sample) /\ variance true (lift sample) = Some 1.
Proof.
  split; [apply sample_enough|]. rewrite variance_ok by apply sample_enough. f_equal.
  unfold sq_dev. rewrite sample_average. unfold Rsum, Rsqr, divisor. simpl. lra.
Qed.

(** Textbook laws: the mean of the squares less the square of the mean; shifting the data leaves
    the variance, scaling it multiplies it by the square. *)
Theorem C64_variance_laws : forall bessel xs a b v, enough bessel (length xs) -> variance bessel (lift xs) = Some v ->
  variance false (lift xs) = Some (Rsum (map Rsqr xs) / INR (length xs) - Rsqr (average xs)) /\
  variance bessel (lift (map (fun x => a * x + b) xs)) = Some (a * a * v).
Proof.
  intros bessel xs a b v H Hv. assert (xs <> []) as Hne by (by eapply enough_ne).
  pose proof (len_pos xs Hne) as Hp. rewrite variance_ok in Hv by done. injection Hv as <-. split.
  - rewrite variance_ok.
    + unfold divisor. f_equal. change (S_ (fun x => Rsqr (x - average xs)) xs / INR (length xs) =
        S_ Rsqr xs / INR (length xs) - Rsqr (average xs)).
      rewrite (S_ext _ (fun x => Rsqr x - 2 * average xs * x + Rsqr (average xs))) by (intros; unfold Rsqr; ring).
      rewrite S_plus, S_minus, S_scal, S_const, S_id.
      assert (Rsum xs = average xs * INR (length xs)) as -> by (unfold average; field; lra).
      unfold Rsqr. field. lra.
    + destruct H as [H1 H2]. split; [destruct bessel; lia|done].
  - rewrite variance_ok by (by rewrite map_length). rewrite sq_dev_line, map_length by done. f_equal. unfold Rdiv. ring.
Qed.
Print Assumptions C64_variance_laws.
Example C64_variance_laws_case : enough true (length sample) /\ variance true (lift sample) = Some 1.
Proof. apply C64_variance_case. Qed.

Theorem C64_covariance : forall bessel xs ys, enough bessel (length xs) -> length xs = length ys ->
  covariance bessel (lift xs) (lift ys) = Some (cross_dev xs ys / divisor bessel (length xs)) /\
  covariance bessel (lift ys) (lift xs) = covariance bessel (lift xs) (lift ys) /\
  covariance bessel (lift xs) (lift xs) = variance bessel (lift xs).
Proof.
  intros b xs ys H Hl. split_and!.
  - by apply covariance_ok.
  - rewrite !covariance_ok by (done || by rewrite <- Hl). rewrite cross_dev_comm, Hl. done.
  - apply covariance_self.
Qed.
Print Assumptions C64_covariance.
Example C64_covariance_case : covariance false (lift sample) (lift [0; 3; 0]) = Some 1.
Proof.
  rewrite covariance_ok by (done || apply sample_enough). f_equal.
  unfold cross_dev. rewrite sample_average. unfold average, Rsum, divisor. simpl. lra.
Qed.

(** The correlation lies between -1 and 1, and is 1 or -1 for data on a line. *)
Theorem C64_correlation : forall bessel xs ys, enough bessel (length xs) -> length xs = length ys ->
  ~ constant xs -> ~ constant ys ->
  exists r, correlation bessel (lift xs) (lift ys) = Some r /\ -1 <= r <= 1 /\
    (exists sx sy, standard_deviation bessel (lift xs) = Some sx /\ standard_deviation bessel (lift ys) = Some sy /\
       covariance bessel (lift xs) (lift ys) = Some (r * (sx * sy))) /\
    (forall a b, 0 < a -> ys = map (fun x => a * x + b) xs -> r = 1) /\
    (forall a b, a < 0 -> ys = map (fun x => a * x + b) xs -> r = -1).
Proof.
  intros bessel xs ys H Hl Hx Hy. pose proof (correlation_ok bessel xs ys H Hl Hx Hy) as Hr.
  eexists. split; [exact Hr|].
  pose proof (sq_dev_pos xs Hx) as Px. pose proof (sq_dev_pos ys Hy) as Py.
  assert (xs <> []) as Hne by (by eapply enough_ne). split_and!.
  - apply ratio_bound; [done|done|by apply cauchy_schwarz].
  - apply ratio_bound; [done|done|by apply cauchy_schwarz].
  - do 2 eexists. split_and!; [by apply std_ok|apply std_ok; by rewrite <- Hl|].
    unfold correlation in Hr. rewrite covariance_ok in * by done. rewrite !std_ok in Hr by (done || by rewrite <- Hl).
    cbn [nmul lift2 ndiv] in Hr. destruct (Req_EM_T _ 0) as [|Hn]; [done|]. injection Hr as <-. f_equal.
    set (u := R_sqrt.sqrt _ * R_sqrt.sqrt _) in *. unfold Rdiv. rewrite Rmult_assoc, (Rinv_l u) by done. ring.
  - intros a b Ha ->. rewrite cross_dev_line, sq_dev_line by done.
    assert (0 < R_sqrt.sqrt (sq_dev xs)) as Hs by (by apply sqrt_lt_R0).
    rewrite sqrt_mult by nra. rewrite sqrt_square by lra.
    replace (R_sqrt.sqrt (sq_dev xs) * (a * R_sqrt.sqrt (sq_dev xs))) with (a * (R_sqrt.sqrt (sq_dev xs) * R_sqrt.sqrt (sq_dev xs))) by ring.
    rewrite sqrt_sqrt by lra. field. lra.
  - intros a b Ha ->. rewrite cross_dev_line, sq_dev_line by done.
    assert (0 < R_sqrt.sqrt (sq_dev xs)) as Hs by (by apply sqrt_lt_R0).
    rewrite sqrt_mult by nra. replace (a * a) with (- a * - a) by ring. rewrite sqrt_square by lra.
    replace (R_sqrt.sqrt (sq_dev xs) * (- a * R_sqrt.sqrt (sq_dev xs))) with (- a * (R_sqrt.sqrt (sq_dev xs) * R_sqrt.sqrt (sq_dev xs))) by ring.
    rewrite sqrt_sqrt by lra. field. lra.
Qed.
Print Assumptions C64_correlation.
Example C64_correlation_case : enough true (length sample) /\ length sample = length [5; 1; 1] /\ ~ constant sample /\ ~ constant [5; 1; 1].
Proof.
  split_and!; [apply sample_enough|done|apply sample_varied|]. intros H. assert (5 = 1) by (apply H; set_solver). lra.
Qed.

(** ** C65: linear regression *)

(** The line returned has a smaller sum of squared residuals than any other. *)
Theorem C65_regression : forall xs ys, length xs = length ys -> ~ constant xs ->
  exists b1 b2, linear_regression (lift xs) (lift ys) = (Some b1, Some b2) /\
  forall c1 c2, (c1, c2) <> (b1, b2) -> residual_ss b1 b2 xs ys < residual_ss c1 c2 xs ys.
Proof.
  intros xs ys Hl Hc. do 2 eexists. split; [by apply regression_ok|]. intros c1 c2 Hne.
  destruct (regression_best xs ys c1 c2 Hl Hc) as [H1 H2]. destruct (Rle_lt_or_eq_dec _ _ H1) as [|E]; [done|].
  destruct Hne. destruct H2 as [-> ->]; done.
Qed.
Print Assumptions C65_regression.
Example C65_regression_case : ~ constant sample /\
  linear_regression (lift sample) (lift [0; 3; 0]) = (Some (3 / 2), Some (-2)).
Proof.
  split; [apply sample_varied|]. rewrite regression_ok by (done || apply sample_varied).
  unfold cross_dev, sq_dev. rewrite sample_average. unfold average, Rsum, Rsqr. simpl. do 2 f_equal; lra.
Qed.

(** ** C66: regression against the index, removal of the trend *)

(** Up to 1290 data. *)
Theorem C66_with_index_partial : forall xs, (2 <= length xs <= 1290)%nat ->
  linear_regression_with_index (lift xs) = Ok (linear_regression (lift (indices (length xs))) (lift xs)).
Proof. apply with_index_ok. Qed.
Print Assumptions C66_with_index_partial.
Example C66_with_index_partial_case : (2 <= length sample <= 1290)%nat /\
  linear_regression_with_index (lift sample) = Ok (Some (1 / 2), Some (3 / 2)).
Proof.
  split; [simpl; lia|]. rewrite with_index_ok by (simpl; lia). rewrite regression_ok.
  - unfold cross_dev, sq_dev. rewrite sample_average. unfold average, Rsum, Rsqr. simpl. do 3 f_equal; lra.
  - done.
  - apply indices_varied. simpl. lia.
Qed.

(** False of the code from 1291 data on, always: n * (n * n - 1) overflows int. *)
Theorem C66_with_index_refuted : forall xs cvt, (1291 <= Z.of_nat (length xs) < 2 ^ 31)%Z ->
  linear_regression_with_index xs = UB Overflow /\ detrend cvt xs = UB Overflow.
Proof.
  intros xs cvt H. split; [by apply with_index_overflow|]. unfold detrend. by rewrite with_index_overflow.
Qed.
Print Assumptions C66_with_index_refuted.
Example C66_with_index_refuted_case : (1291 <= Z.of_nat (length (replicate 1291 (Some 1))) < 2 ^ 31)%Z.
Proof. rewrite replicate_length. lia. Qed.

(** remove_dc: every element less the mean; the result has mean zero. *)
Theorem C66_remove_dc : forall xs, xs <> [] ->
  exists ys, remove_dc (lift xs) = lift ys /\ length ys = length xs /\ average ys = 0 /\
    forall i x, xs !! i = Some x -> ys !! i = Some (x - average xs).
Proof. apply remove_dc_ok. Qed.
Print Assumptions C66_remove_dc.
Example C66_remove_dc_case : sample <> [].
Proof. done. Qed.

(** detrend, if the element type represents the indices: the data less the regression line, with
    mean and slope zero; detrending again changes nothing. *)
Theorem C66_detrend_partial : forall xs, (2 <= length xs <= 1290)%nat ->
  exists ys b1 b2, detrend cvt_exact (lift xs) = Ok (lift ys) /\
    linear_regression (lift (indices (length xs))) (lift xs) = (Some b1, Some b2) /\
    ys = zip_with (fun i x => x - (b1 * i + b2)) (indices (length xs)) xs /\
    average ys = 0 /\ linear_regression (lift (indices (length xs))) (lift ys) = (Some 0, Some 0) /\
    detrend cvt_exact (lift ys) = Ok (lift ys).
Proof.
  intros xs Hn. destruct (detrend_flat xs Hn) as (ys & H1 & H2 & H3 & H4).
  assert (~ constant (indices (length xs))) as Hv by (apply indices_varied; lia).
  assert (0 < sq_dev (indices (length xs))) by (by apply sq_dev_pos).
  do 3 eexists. split_and!; [exact H1|by apply regression_ok; rewrite ?indices_length| |done| |].
  - rewrite detrend_exact in H1 by done. injection H1 as H1.
    assert (forall l1 l2, lift l1 = lift l2 -> l1 = l2) as Hinj.
    { induction l1 as [|x l1 IH]; intros [|y l2] E; simplify_eq/=; f_equal; auto. }
    symmetry. by apply Hinj.
  - rewrite regression_ok by (rewrite ?indices_length; done). rewrite H3, H4. do 2 f_equal; field; lra.
  - apply detrend_fix; [by rewrite H2|done|by rewrite H2].
Qed.
Print Assumptions C66_detrend_partial.
Example C66_detrend_partial_case : (2 <= length sample <= 1290)%nat.
Proof. simpl. lia. Qed.

(** False of the code for sequences of signed 8-bit integers with 129 to 1290 elements and a
    non-zero trend, always: the index is converted to the element type and wraps, and the mean of
    the result is not zero. *)
Theorem C66_detrend_refuted : forall zs, (129 <= length zs <= 1290)%nat ->
  (forall z, z ∈ zs -> (-128 <= z <= 127)%Z) -> cross_dev (indices (length zs)) (map IZR zs) <> 0 ->
  exists ys, detrend (cvt_int (ITy 8 true)) (lift (map IZR zs)) = Ok (lift ys) /\ average ys <> 0.
Proof. intros zs Hn _ Hs. apply detrend_int8; [done|]. by rewrite map_length. Qed.
Print Assumptions C66_detrend_refuted.
(** A step at the end has a trend. *)
Example C66_detrend_refuted_case : let zs := replicate 128 0%Z ++ [1%Z] in
  length zs = 129%nat /\ (forall z, z ∈ zs -> (-128 <= z <= 127)%Z) /\
  cross_dev (indices (length zs)) (map IZR zs) <> 0.
Proof.
  split_and!.
  - done.
  - intros z Hz. apply elem_of_app in Hz as [Hz|Hz].
    + apply elem_of_replicate in Hz as [-> _]. lia.
    + apply elem_of_list_singleton in Hz as ->. lia.
  - set (zs := replicate 128 0%Z ++ [1%Z]).
    assert (forall n, cross_dev (indices (S n)) (map IZR (replicate n 0%Z ++ [1%Z])) = INR n - average (indices (S n))
              - average (map IZR (replicate n 0%Z ++ [1%Z])) * (S_ (fun i => i - average (indices (S n))) (indices (S n)))) as E.
    { intros n. unfold cross_dev. set (u := average (indices (S n))). set (w := average _). clearbody u w.
      unfold indices. rewrite zip_with_map.
      change (Rsum (map ?f ?l)) with (S_ f l).
      rewrite (S_ext _ (fun p => (p.1 - u) * p.2 - w * (p.1 - u))) by (intros; ring).
      rewrite S_minus, S_scal. rewrite (S_zip_fst (fun i => i - u)).
      - assert (S_ (fun p : R * R => (p.1 - u) * p.2) (zip (map INR (seq 0 (S n))) (map IZR (replicate n 0%Z ++ [1%Z]))) = INR n - u) as ->.
        { rewrite seq_S, !map_app. rewrite zip_with_app by (by rewrite !map_length, seq_length, replicate_length).
          rewrite S_app. unfold S_ at 2, Rsum. simpl.
          rewrite (S_ext _ (fun _ => 0)).
          - rewrite S_const. lra.
          - intros [i z] Hp. apply elem_of_zip_r in Hp. simpl. change (map IZR (replicate n 0%Z)) with (IZR <$> replicate n 0%Z) in Hp.
            rewrite fmap_replicate in Hp. apply elem_of_replicate in Hp as [-> _]. lra. }
        lra.
      - rewrite !map_length, seq_length, app_length, replicate_length. simpl. lia. }
    change (length zs) with 129%nat. unfold zs. rewrite (E 128%nat).
    rewrite dev_zero by (apply indices_ne; lia). rewrite average_indices by lia.
    rewrite (INR_IZR_INZ 128), (INR_IZR_INZ 129). change (Z.of_nat 128) with 128%Z. change (Z.of_nat 129) with 129%Z. lra.
Qed.

(** ** C95: autocovariance and autocorrelation *)

(** The sum over the pairs [lag] apart, divided as in the textbook, for every lag up to the number
    of data. *)
Theorem C95_autocovariance : forall bessel xs lag, (lag <= length xs)%nat ->
  (1 <= Z.of_nat (length xs) < 2 ^ 31)%Z -> enough bessel (length xs) ->
  autocovariance bessel false (lift xs) (Z.of_nat lag) = Ok (Some (lagged lag xs / divisor bessel (length xs))) /\
  (enough bessel (length xs - lag) ->
   autocovariance bessel true (lift xs) (Z.of_nat lag) = Ok (Some (lagged lag xs / divisor bessel (length xs - lag)))).
Proof.
  intros b xs lag Hl Hn He. pose proof (divisor_pos b _ He) as Hd. split.
  - rewrite autocovariance_ok by done. f_equal. unfold of_Z. unfold divisor in *. destruct b.
    + rewrite minus_IZR, <- INR_IZR_INZ. apply ndiv_ok. lra.
    + rewrite <- INR_IZR_INZ. apply ndiv_ok. lra.
  - intros He2. pose proof (divisor_pos b _ He2) as Hd2. rewrite autocovariance_ok by done. f_equal. unfold of_Z.
    unfold divisor in *. destruct He2 as [He2 _]. destruct b.
    + rewrite size_small by lia. rewrite minus_IZR. rewrite <- Nat2Z.inj_sub, <- INR_IZR_INZ by done. apply ndiv_ok. lra.
    + rewrite <- Nat2Z.inj_sub, <- INR_IZR_INZ by done. apply ndiv_ok. lra.
Qed.
Print Assumptions C95_autocovariance.
Example C95_autocovariance_case : (1 <= length sample)%nat /\ (1 <= Z.of_nat (length sample) < 2 ^ 31)%Z /\
  enough true (length sample) /\ enough true (length sample - 1) /\ lagged 1 sample = -1.
Proof.
  split_and!; [simpl; lia|simpl; lia|simpl; lia|apply sample_enough|split; simpl; lia|].
  unfold lagged. rewrite sample_average. unfold Rsum. simpl. lra.
Qed.

(** Lag 0 is the variance, its autocorrelation is 1; no autocorrelation exceeds 1. *)
Theorem C95_autocorrelation : forall bessel xs lag, (lag <= length xs)%nat -> (Z.of_nat (length xs) < 2 ^ 31)%Z ->
  enough bessel (length xs) -> ~ constant xs ->
  (exists r, autocorrelation bessel false (lift xs) (Z.of_nat lag) = Ok (Some r) /\ -1 <= r <= 1) /\
  autocorrelation bessel false (lift xs) 0 = Ok (Some 1) /\
  autocovariance bessel false (lift xs) 0 = Ok (variance bessel (lift xs)).
Proof.
  intros b xs lag Hl Hn He Hc. pose proof (divisor_pos b _ He) as Hd. pose proof (sq_dev_pos xs Hc) as Hp.
  assert (1 <= Z.of_nat (length xs) < 2 ^ 31)%Z as Hn' by (destruct He; destruct b; lia).
  assert (0 < sq_dev xs / divisor b (length xs)) as Hv by (by apply Rdiv_gt0).
  unfold autocorrelation. rewrite (proj1 (C95_autocovariance b xs lag Hl Hn' He)).
  pose proof (proj1 (C95_autocovariance b xs 0 (Nat.le_0_l _) Hn' He)) as E0. change (Z.of_nat 0) with 0%Z in E0. rewrite E0.
  rewrite variance_ok by done. cbn [bind]. rewrite !ndiv_ok by lra. rewrite lagged_0. split_and!.
  - eexists. split; [done|].
    replace (lagged lag xs / divisor b (length xs) / (sq_dev xs / divisor b (length xs))) with (lagged lag xs / sq_dev xs) by (field; lra).
    pose proof (lagged_bound lag xs) as Hb.
    assert (- sq_dev xs <= lagged lag xs <= sq_dev xs) by (unfold Rabs in Hb; destruct (Rcase_abs _); lra).
    split.
    + apply (Rmult_le_reg_r (sq_dev xs)); [done|]. unfold Rdiv. rewrite Rmult_assoc, Rinv_l by lra. lra.
    + apply (Rmult_le_reg_r (sq_dev xs)); [done|]. unfold Rdiv. rewrite Rmult_assoc, Rinv_l by lra. lra.
  - do 2 f_equal. field. lra.
  - done.
Qed.
Print Assumptions C95_autocorrelation.
Example C95_autocorrelation_case : enough true (length sample) /\ ~ constant sample.
Proof. split; [apply sample_enough|apply sample_varied]. Qed.

(** False of the code for a negative lag (where the textbook autocovariance is that of the opposite
    lag) and for a lag above the number of data (where it is zero), always: it reads outside the
    sequence. *)
Theorem C95_lag_refuted : forall bessel adjusted (xs : list num) lag,
  (Z.of_nat (length xs) < 2 ^ 31)%Z -> (- 2 ^ 31 <= lag < 2 ^ 31)%Z -> (lag < 0 \/ Z.of_nat (length xs) < lag)%Z ->
  autocovariance bessel adjusted xs lag = UB OutOfBounds /\ autocorrelation bessel adjusted xs lag = UB OutOfBounds.
Proof.
  intros b adj xs lag Hn Hr Hlag. pose proof (autocovariance_bad b adj xs lag Hn Hr Hlag) as E.
  split; [done|]. unfold autocorrelation. by rewrite E.
Qed.
Print Assumptions C95_lag_refuted.
Example C95_lag_refuted_case : autocovariance false false (lift sample) (-1) = UB OutOfBounds.
Proof. apply C95_lag_refuted; simpl; lia. Qed.

(** ** C96: is_approx *)

(** Two floating-point numbers, or a floating-point number and a smaller integer: within the epsilon
    of the larger type, in either order. *)
Theorem C96_is_approx_partial : forall ta tb x y s e,
  (ta = Float s e /\ (tb = Float s e \/ (fsize tb < s)%nat)) \/
  (tb = Float s e /\ (ta = Float s e \/ (fsize ta < s)%nat)) ->
  (is_approx ta tb x y = true <-> Rabs (x - y) <= e) /\ is_approx tb ta y x = is_approx ta tb x y.
Proof.
  intros ta tb x y s e H. unfold is_approx.
  assert ((if decide (fsize tb < fsize ta)%nat then ta else tb) = Float s e) as ->.
  { destruct H as [(-> & [->|H])|(-> & [->|H])]; simpl; destruct (decide _); (done || lia). }
  assert ((if decide (fsize ta < fsize tb)%nat then tb else ta) = Float s e) as ->.
  { destruct H as [(-> & [->|H])|(-> & [->|H])]; simpl; destruct (decide _); (done || lia). }
  cbn [fcvt eps_of]. rewrite !abs_float_Rabs, (Rabs_minus_sym y x). split; [|done].
  destruct (Rle_dec _ _); split; done.
Qed.
Print Assumptions C96_is_approx_partial.
Example C96_is_approx_partial_case : is_approx (Float 8 (/ 1000)) (Int 4) (1 / 2) (1 / 2) = true.
Proof.
  apply (C96_is_approx_partial (Float 8 (/ 1000)) (Int 4) (1 / 2) (1 / 2) 8 (/ 1000)).
  - left. split; [done|]. right. simpl. lia.
  - replace (1 / 2 - 1 / 2) with 0 by lra. rewrite Rabs_R0. lra.
Qed.

(** False of the code for a floating-point number and an integer of its size or larger, as float and
    int, always: the number is truncated, so everything strictly between -1 and 1 is approximately
    0; with the arguments of equal size exchanged it is not. *)
Theorem C96_is_approx_refuted : forall s s' e x, (s <= s')%nat -> 0 < e -> e < Rabs x < 1 ->
  is_approx (Float s e) (Int s') x 0 = true /\ (s = s' -> is_approx (Int s') (Float s e) 0 x = false).
Proof.
  intros s s' e x Hs He Hx. split.
  - unfold is_approx. cbn [fsize]. rewrite decide_False by lia. cbn [fcvt eps_of].
    assert (-1 < x < 1) as Hx1 by (unfold Rabs in Hx; destruct (Rcase_abs x); lra).
    rewrite (trunc_small x) by lra. rewrite (trunc_small 0) by lra. rewrite abs_float_Rabs.
    replace (0 - 0) with 0 by lra. rewrite Rabs_R0. destruct (Rle_dec 0 0); [done|lra].
  - intros ->. unfold is_approx. cbn [fsize]. rewrite decide_False by lia. cbn [fcvt eps_of].
    rewrite abs_float_Rabs. replace (0 - x) with (- x) by lra. rewrite Rabs_Ropp.
    destruct (Rle_dec _ _); [lra|done].
Qed.
Print Assumptions C96_is_approx_refuted.
Example C96_is_approx_refuted_case : 0 < / 1000 /\ / 1000 < Rabs (9 / 10) < 1.
Proof. rewrite Rabs_pos_eq by lra. lra. Qed.

(** ** C97: normalised errors *)

Theorem C97_nrmse_partial : forall tiny huge xs ys m n r, length xs = length ys -> xs <> [] ->
  rmse (lift xs) (lift ys) = Some r ->
  (average ys <> 0 -> nrmse_mean (lift xs) (lift ys) = Some (r / average ys)) /\
  (m ∈ ys -> n ∈ ys -> (forall y, y ∈ ys -> n <= y <= m) -> n < m -> tiny <= m -> n <= huge ->
   nrmse_max_min tiny huge xs ys = Some (r / (m - n))).
Proof.
  intros tiny huge xs ys m n r Hl Hne Hr. assert (ys <> []) as Hne2 by (intros ->; by destruct xs). split.
  - intros Ha. unfold nrmse_mean. rewrite Hr, mean_ok by done. by apply ndiv_ok.
  - intros Hm Hn Hmn Hlt Ht Hh. unfold nrmse_max_min. rewrite Hr.
    destruct (max_elem_ok Rltb R_order tiny ys m Hm) as [M1 M2]; [by apply R_at_most|].
    destruct (min_elem_ok Rltb R_order huge ys n Hn) as [N1 N2]; [by apply R_at_most|].
    assert (max_elem Rltb tiny ys = m) as E1.
    { apply Rle_antisym; [by apply Hmn|by apply R_at_most, M2]. }
    assert (min_elem Rltb huge ys = n) as E2.
    { apply Rle_antisym; [by apply R_at_most, N2|by apply Hmn]. }
    unfold max_min_float, max_elem_float, min_elem_float. rewrite E1, E2. apply ndiv_ok. lra.
Qed.
Print Assumptions C97_nrmse_partial.
Example C97_nrmse_partial_case : rmse (lift [1; 2; 3]) (lift [1; 2; 3]) = Some 0.
Proof.
  rewrite rmse_ok by done. f_equal. unfold Rsum, Rsqr. simpl.
  replace (_ / _) with 0 by lra. apply sqrt_0.
Qed.

(** False of the code if every datum is smaller than the least positive number, in particular for
    negative data, always: the divisor is not the range, and the error comes out too small. *)
Theorem C97_nrmse_refuted : forall tiny huge xs ys m n r, length xs = length ys ->
  rmse (lift xs) (lift ys) = Some r -> 0 < r ->
  m ∈ ys -> n ∈ ys -> (forall y, y ∈ ys -> n <= y <= m) -> n < m -> m < tiny -> n <= huge ->
  exists e, nrmse_max_min tiny huge xs ys = Some e /\ e < r / (m - n).
Proof.
  intros tiny huge xs ys m n r Hl Hr Hpos Hm Hn Hmn Hlt Ht Hh. unfold nrmse_max_min. rewrite Hr.
  destruct (max_elem_start Rltb R_order tiny ys) as [E1 _].
  { intros y Hy. apply Rltb_lt. specialize (Hmn y Hy). lra. }
  destruct (min_elem_ok Rltb R_order huge ys n Hn) as [N1 N2]; [by apply R_at_most|].
  assert (min_elem Rltb huge ys = n) as E2.
  { apply Rle_antisym; [by apply R_at_most, N2|by apply Hmn]. }
  unfold max_min_float, max_elem_float, min_elem_float. rewrite E1, E2. eexists. split; [apply ndiv_ok; lra|].
  unfold Rdiv. apply Rmult_lt_compat_l; [done|]. apply Rinv_lt_contravar; [|lra]. apply Rmult_lt_0_compat; lra.
Qed.
Print Assumptions C97_nrmse_refuted.
Example C97_nrmse_refuted_case : rmse (lift [-1; -1]) (lift [-2; -2]) = Some 1 /\ rmse (lift [-1; -2]) (lift [-2; -1]) = Some 1 /\ 0 < 1 /\ -2 < -1 < / 1000.
Proof.
  split_and!; [| |lra..].
  - rewrite rmse_ok by done. f_equal. unfold Rsum, Rsqr. simpl. replace (_ / _) with 1 by lra. apply sqrt_1.
  - rewrite rmse_ok by done. f_equal. unfold Rsum, Rsqr. simpl. replace (_ / _) with 1 by lra. apply sqrt_1.
Qed.

(** ** C98: the mean of integers *)

(** The mean of integers, if every partial sum is representable. *)
Theorem C98_mean_partial : forall t xs, (0 < bits t)%Z -> xs <> [] ->
  (forall k, (lo t <= zsum (take k xs) <= hi t)%Z) -> mean_int t xs = Ok (Some (average (map IZR xs))).
Proof.
  intros t xs Hb Hne H. unfold mean_int. rewrite sum_ok.
  - cbn [bind]. f_equal. rewrite of_size_INR. unfold of_Z. rewrite ndiv_ok by (pose proof (len_pos xs Hne); lra).
    unfold average. rewrite map_length. do 2 f_equal. unfold zsum, Rsum. clear.
    induction xs as [|x xs IH]; simpl; [done|]. by rewrite plus_IZR, IH.
  - done.
  - intros k. apply in_range_spec, H.
Qed.
Print Assumptions C98_mean_partial.
Example C98_mean_partial_case : zsum [100; -100; 27]%Z = 27%Z.
Proof. done. Qed.

(** False of the code otherwise: undefined for int and wider signed types, and for the narrower
    types and the unsigned ones the mean of a total taken modulo 2^bits. *)
Theorem C98_mean_refuted : forall t xs,
  ((32 <= bits t)%Z -> signed t = true -> (exists k, ~ (lo t <= zsum (take k xs) <= hi t)%Z) ->
   mean_int t xs = UB Overflow) /\
  ((0 < bits t <= 16)%Z \/ ((32 <= bits t)%Z /\ signed t = false) -> xs <> [] ->
   (forall x, x ∈ xs -> (lo t <= x <= hi t)%Z) -> ~ (lo t <= zsum xs <= hi t)%Z ->
   exists m, mean_int t xs = Ok (Some m) /\ m <> average (map IZR xs)).
Proof.
  intros t xs. split.
  - intros Hb Hs (k & Hk). unfold mean_int. rewrite sum_overflow with (k := k); [done|done|done|].
    apply not_true_iff_false. by rewrite in_range_spec.
  - intros Hb Hne Hr Ht. pose proof (len_pos xs Hne) as Hp.
    assert (sum t xs = Ok (conv t (zsum xs))) as E.
    { destruct Hb as [Hb|[Hb Hs]].
      - apply sum_narrow; [done|]. apply Forall_forall. intros. by apply in_range_spec, Hr.
      - rewrite sum_wraps by done. by rewrite conv_unsigned. }
    unfold mean_int. rewrite E. cbn [bind]. rewrite of_size_INR. unfold of_Z. rewrite ndiv_ok by lra.
    eexists. split; [done|]. unfold average. rewrite map_length.
    assert (Rsum (map IZR xs) = IZR (zsum xs)) as ->.
    { unfold zsum, Rsum. clear. induction xs as [|x xs IH]; simpl; [done|]. by rewrite plus_IZR, IH. }
    intros F. apply (Rmult_eq_compat_r (INR (length xs))) in F. unfold Rdiv in F.
    rewrite !Rmult_assoc, !Rinv_l, !Rmult_1_r in F by lra. apply eq_IZR in F.
    pose proof (conv_range t (zsum xs)) as R. rewrite F in R. apply Ht, in_range_spec, R. destruct Hb as [?|[? ?]]; lia.
Qed.
Print Assumptions C98_mean_refuted.
Example C98_mean_refuted_case : zsum [100; 100]%Z = 200%Z /\ hi (ITy 8 true) = 127%Z.
Proof. done. Qed.
