(** Errors of means and sums of squares, is_approx and extreme elements in IEEE 754 arithmetic. *)
From Coq Require Import Reals Lra.
From Flocq Require Import Core BinarySingleNaN Plus_error Relative.
From Verif Require Import Base.Cpp Model.Numeric Model.Ieee Proofs.IeeeProofs Proofs.IeeeOrder.
Local Open Scope R_scope.

Section ieee.
Context {prec emax : Z} {Hprec : Prec_gt_0 prec} {Hemax : Prec_lt_emax prec emax}.
Notation flt := (binary_float prec emax).
Notation fexp := (SpecFloat.fexp prec emax).
Notation emin := (SpecFloat.emin prec emax).
Notation rnd := (round radix2 fexp ZnearestE).
Notation big := (bpow radix2 emax).
Notation add := (fadd prec emax).
Notation sub := (fsub prec emax).
Notation mul := (fmul prec emax).
Notation div := (fdiv prec emax).
Notation sqr := (fsqrt prec emax).
Notation zero := (fzero prec emax).
Notation huge := (fhuge prec emax).
Notation finite x := (is_finite x = true).
Notation le := (flt_le prec emax).
Notation lt := (flt_lt prec emax).
Notation u := (@u prec).
Notation rsum xs := (fold_right Rplus 0 (map (@B2R prec emax) xs)).
Notation rsum_abs xs := (fold_right Rplus 0 (map (fun x : flt => Rabs (B2R x)) xs)).

(** ** One rounding *)
Definition eta : R := / 2 * bpow radix2 emin.
Lemma eta_pos : 0 < eta.
Proof. unfold eta. pose proof (bpow_gt_0 radix2 emin). lra. Qed.

Lemma rnd_error v : exists e h, Rabs e <= u /\ Rabs h <= eta /\ rnd v = v * (1 + e) + h.
Proof.
  destruct (relative_error_N_FLT'_ex radix2 emin prec prec_pos (fun z => negb (Z.even z)) v) as (e & h & He & Hh & _ & Hr).
  exists e, h. split_and!; [|exact Hh|exact Hr]. eapply Rle_trans; [exact He|].
  rewrite <- u_ro_u. apply u_rod1pu_ro_le_u_ro.
Qed.

Lemma rnd_minus_error (x y : flt) : exists e, Rabs e <= u /\ rnd (B2R x - B2R y) = (B2R x - B2R y) * (1 + e).
Proof.
  destruct (rnd_plus_error x (Bopp y)) as (e & He & Hr). rewrite B2R_Bopp in Hr. exists e. done.
Qed.

(** The length as a number. *)
Lemma length_error n : (64 < emax)%Z -> (1 <= Z.of_nat n < 2 ^ 64)%Z ->
  exists d, Rabs d <= u /\ ((Z.of_nat n <= 2 ^ prec)%Z -> d = 0) /\
    B2R (fof_size prec emax n) = INR n * (1 + d).
Proof.
  intros He Hn. unfold fof_size. destruct (fof_Z_spec (Z.of_nat n) He) as (H1 & -> & H3); [lia|].
  rewrite <- INR_IZR_INZ. destruct (decide (Z.of_nat n <= 2 ^ prec)%Z) as [Hs|Hb].
  - exists 0. split_and!; [rewrite Rabs_R0; pose proof (u_pos (prec := prec)); lra|done|].
    rewrite INR_IZR_INZ, round_generic; [lra|apply valid_rnd_N|]. apply IZR_format'; lia.
  - destruct (relative_error_N_FLT_ex radix2 emin prec prec_pos (fun z => negb (Z.even z)) (INR n)) as (d & Hd & Hr).
    + rewrite INR_IZR_INZ, Rabs_pos_eq by (apply IZR_le; lia).
      apply Rle_trans with (bpow radix2 0); [|apply (IZR_le 1); lia].
      apply bpow_le. unfold SpecFloat.emin. lia.
    + exists d. split_and!; [|lia|exact Hr]. rewrite <- u_ro_u. exact Hd.
Qed.

(** ** Products of factors near 1 *)
Lemma near1_mul a b A B : Rabs (a - 1) <= A - 1 -> Rabs (b - 1) <= B - 1 -> Rabs (a * b - 1) <= A * B - 1.
Proof.
  intros Ha Hb. replace (a * b - 1) with ((a - 1) * (b - 1) + (a - 1) + (b - 1)) by ring.
  eapply Rle_trans; [apply Rabs_triang|]. eapply Rle_trans; [apply Rplus_le_compat_r, Rabs_triang|].
  rewrite Rabs_mult. pose proof (Rabs_pos (a - 1)). pose proof (Rabs_pos (b - 1)).
  assert (Rabs (a - 1) * Rabs (b - 1) <= (A - 1) * (B - 1)) by (apply Rmult_le_compat; lra).
  replace (A * B - 1) with ((A - 1) * (B - 1) + (A - 1) + (B - 1)) by ring. lra.
Qed.
Lemma near1_e e : Rabs e <= u -> Rabs (1 + e - 1) <= (1 + u) - 1.
Proof. intros. replace (1 + e - 1) with e by lra. lra. Qed.
Lemma near1_inv d c : Rabs d <= c -> c < 1 -> Rabs (/ (1 + d) - 1) <= / (1 - c) - 1.
Proof.
  intros Hd Hc. assert (0 < 1 - c) as H0 by lra.
  assert (- c <= d <= c) as Hb by (unfold Rabs in Hd; destruct (Rcase_abs d); lra). 
  assert (0 < 1 + d) as H1 by lra.
  replace (/ (1 + d) - 1) with (- d * / (1 + d)) by (field; lra).
  replace (/ (1 - c) - 1) with (c * / (1 - c)) by (field; lra).
  rewrite Rabs_mult, Rabs_Ropp. apply Rmult_le_compat; [apply Rabs_pos|apply Rabs_pos|done|].
  rewrite Rabs_pos_eq by (apply Rlt_le; by apply Rinv_0_lt_compat). apply Rinv_le; lra.
Qed.

(** ** Terms with errors *)
Definition near (g h : R) (t : flt) (T : R) : Prop := Rabs (B2R t - T) <= g * Rabs T + h.
Notation tsum Ts := (fold_right Rplus 0 Ts).
Notation tabs Ts := (fold_right Rplus 0 (map Rabs Ts)).
Lemma tabs_nonneg Ts : 0 <= tabs Ts.
Proof. induction Ts as [|T Ts IH]; cbn; [lra|]. pose proof (Rabs_pos T). lra. Qed.
Lemma tabs_tsum Ts : Forall (fun T => 0 <= T) Ts -> tabs Ts = tsum Ts.
Proof. induction 1 as [|T Ts HT _ IH]; cbn; [done|]. by rewrite IH, Rabs_pos_eq. Qed.
Lemma near_abs g h ts Ts : Forall2 (near g h) ts Ts -> rsum_abs ts <= (1 + g) * tabs Ts + INR (length ts) * h.
Proof.
  induction 1 as [|t T ts Ts H _ IH]; [cbn; lra|]. cbn [map fold_right length]. rewrite S_INR. unfold near in H.
  pose proof (Rabs_triang (B2R t - T) T) as Ht. replace (B2R t - T + T) with (B2R t) in Ht by lra. lra.
Qed.
Lemma near_sum g h ts Ts : Forall2 (near g h) ts Ts ->
  Rabs (rsum ts - tsum Ts) <= g * tabs Ts + INR (length ts) * h.
Proof.
  induction 1 as [|t T ts Ts H _ IH]; [cbn; rewrite Rminus_0_r, Rabs_R0; lra|].
  cbn [map fold_right length]. rewrite S_INR. unfold near in H.
  replace (B2R t + rsum ts - (T + tsum Ts)) with ((B2R t - T) + (rsum ts - tsum Ts)) by lra.
  eapply Rle_trans; [apply Rabs_triang|]. lra.
Qed.

Lemma combine_errors r p m S W A n h g H : 1 <= p ->
  Rabs (r - m) <= (p - 1) * A + h -> A <= (1 + g) * W + n * H -> Rabs (m - S) <= g * W + n * H ->
  Rabs (r - S) <= (p * (1 + g) - 1) * W + p * (n * H) + h.
Proof.
  intros Hp H1 H2 H3. replace (r - S) with ((r - m) + (m - S)) by lra.
  eapply Rle_trans; [apply Rabs_triang|].
  assert ((p - 1) * A <= (p - 1) * ((1 + g) * W + n * H)) by (apply Rmult_le_compat_l; lra).
  replace ((p * (1 + g) - 1) * W + p * (n * H) + h)
    with ((p - 1) * ((1 + g) * W + n * H) + h + (g * W + n * H)) by ring. lra.
Qed.

Lemma sum_near g h ts Ts : Forall2 (near g h) ts Ts -> finite (fsum prec emax ts) ->
  Rabs (B2R (fsum prec emax ts) - tsum Ts) <=
    ((1 + u) ^ (length ts - 1) * (1 + g) - 1) * tabs Ts + (1 + u) ^ (length ts - 1) * (INR (length ts) * h).
Proof.
  intros Hn Hf. pose proof (sum_error _ Hf) as He.
  pose proof (near_sum _ _ _ _ Hn) as H1. pose proof (near_abs _ _ _ _ Hn) as H2.
  pose proof (pow_u_ge_1 (prec := prec) (length ts - 1)) as Hp.
  rewrite <- (Rplus_0_r (_ + _)). eapply combine_errors; try done. lra.
Qed.

(** ** Quotients of sums by lengths *)
Definition quotient (xs : list flt) (k : nat) : flt := div (fsum prec emax xs) (fof_size prec emax k).
Lemma quotient_finite_inv xs k : finite (quotient xs k) -> finite (fsum prec emax xs).
Proof.
  unfold quotient, fdiv. destruct (fsum prec emax xs) as [|s| |], (fof_size prec emax k) as [|[]| |]; done.
Qed.
Lemma fmean_finite_inv xs : finite (fmean prec emax xs) -> finite (fsum prec emax xs).
Proof. apply quotient_finite_inv. Qed.

(** The length is rounded if it exceeds 2^prec: [c] bounds its error. *)
Definition length_unit (c : R) (k : nat) : Prop := c = u \/ (c = 0 /\ (Z.of_nat k <= 2 ^ prec)%Z).

Lemma quotient_error c xs k : (64 < emax)%Z -> (1 <= length xs)%nat -> (1 <= Z.of_nat k < 2 ^ 64)%Z ->
  length_unit c k -> finite (quotient xs k) ->
  Rabs (B2R (quotient xs k) - rsum xs / INR k) <=
    ((1 + u) ^ length xs / (1 - c) - 1) * (rsum_abs xs / INR k) + eta.
Proof.
  intros He Hlen Hn Hc Hf. pose proof (quotient_finite_inv _ _ Hf) as Hs. pose proof (sum_error _ Hs) as Herr.
  destruct (length_error k He Hn) as (d & Hd & Hd0 & Ed).
  assert (Rabs d <= c) as Hdc.
  { destruct Hc as [->|[-> Hle]]; [done|]. rewrite (Hd0 Hle), Rabs_R0. lra. }
  pose proof (u_pos (prec := prec)) as Hu. pose proof (u_lt_1 (prec := prec)) as Hu1.
  assert (c < 1) as Hc1 by (destruct Hc as [->|[-> _]]; lra).
  assert (0 < INR k) as HN by (apply lt_0_INR; lia).
  set (n := INR k) in *. set (s := B2R (fsum prec emax xs)) in *.
  assert (- c <= d <= c) as Hb by (unfold Rabs in Hdc; destruct (Rcase_abs d); lra).
  assert (0 < 1 + d) as H1d by lra.
  assert (B2R (fof_size prec emax k) <> 0) as Hnz by (rewrite Ed; apply Rmult_integral_contrapositive; lra).
  destruct (fdiv_spec (fsum prec emax xs) (fof_size prec emax k) Hs Hnz) as [(_ & Hv & _)|[E _]];
    [|unfold quotient in Hf; by rewrite E in Hf].
  unfold quotient. rewrite Hv, Ed. fold s.
  destruct (rnd_error (s / (n * (1 + d)))) as (e & h & He1 & Hh & ->).
  set (t := (1 + e) * / (1 + d)).
  replace (s / (n * (1 + d)) * (1 + e) + h - rsum xs / n) with ((s * t - rsum xs) / n + h) by (unfold t; field; lra).
  assert (Rabs (t - 1) <= (1 + u) * / (1 - c) - 1) as Ht.
  { apply near1_mul; [by apply near1_e|by apply near1_inv]. }
  set (p := (1 + u) ^ (length xs - 1)) in *. pose proof (pow_u_ge_1 (prec := prec) (length xs - 1)) as Hp. fold p in Hp.
  assert ((1 + u) ^ length xs = (1 + u) * p) as Epow.
  { unfold p. replace (length xs) with (S (length xs - 1)) at 1 by lia. done. }
  rewrite Epow. set (T := (1 + u) * / (1 - c)) in *.
  replace ((1 + u) * p / (1 - c) - 1) with (p * T - 1) by (unfold T; field; lra).
  set (S := rsum xs) in *. set (B := rsum_abs xs) in *.
  assert (Rabs S <= B) as HSB by apply rsum_le_abs.
  assert (0 <= B) as HB by apply rsum_abs_nonneg.
  assert (Rabs s <= p * B) as Hsp.
  { replace s with ((s - S) + S) by lra. eapply Rle_trans; [apply Rabs_triang|]. lra. }
  assert (Rabs (s * t - S) <= (p * T - 1) * B) as Hmain.
  { replace (s * t - S) with (s * (t - 1) + (s - S)) by ring. eapply Rle_trans; [apply Rabs_triang|].
    rewrite Rabs_mult. assert (Rabs s * Rabs (t - 1) <= p * B * (T - 1)) by (apply Rmult_le_compat; [apply Rabs_pos|apply Rabs_pos|done|done]).
    replace ((p * T - 1) * B) with (p * B * (T - 1) + (p - 1) * B) by ring. lra. }
  eapply Rle_trans; [apply Rabs_triang|]. unfold Rdiv. rewrite Rabs_mult.
  rewrite (Rabs_pos_eq (/ n)) by (apply Rlt_le; by apply Rinv_0_lt_compat).
  rewrite <- (Rmult_assoc (p * T - 1)). apply Rplus_le_compat; [|done].
  apply Rmult_le_compat_r; [apply Rlt_le; by apply Rinv_0_lt_compat|done].
Qed.

Lemma mean_error c xs : (64 < emax)%Z -> (1 <= Z.of_nat (length xs) < 2 ^ 64)%Z ->
  length_unit c (length xs) -> finite (fmean prec emax xs) ->
  Rabs (B2R (fmean prec emax xs) - rsum xs / INR (length xs)) <=
    ((1 + u) ^ length xs / (1 - c) - 1) * (rsum_abs xs / INR (length xs)) + eta.
Proof. intros He Hn Hc Hf. apply quotient_error; try done. lia. Qed.

Lemma quotient_near c g h ts Ts k : (64 < emax)%Z -> (1 <= length ts)%nat -> (1 <= Z.of_nat k < 2 ^ 64)%Z ->
  length_unit c k -> Forall2 (near g h) ts Ts -> finite (quotient ts k) ->
  Rabs (B2R (quotient ts k) - tsum Ts / INR k) <=
    ((1 + u) ^ length ts / (1 - c) * (1 + g) - 1) * (tabs Ts / INR k)
    + (1 + u) ^ length ts / (1 - c) * (INR (length ts) / INR k * h) + eta.
Proof.
  intros He Hlen Hn Hc Hnear Hf.
  assert (0 < INR k) as HN by (apply lt_0_INR; lia).
  pose proof (u_pos (prec := prec)) as Hu. pose proof (u_lt_1 (prec := prec)) as Hu1.
  assert (0 <= c < 1) as Hc1 by (destruct Hc as [->|[-> _]]; lra).
  pose proof (near_sum _ _ _ _ Hnear) as H1. pose proof (near_abs _ _ _ _ Hnear) as H2.
  pose proof (quotient_error c ts k He Hlen Hn Hc Hf) as H4.
  set (n := INR k) in *. assert (0 < / n) as Hin by (by apply Rinv_0_lt_compat).
  set (P := (1 + u) ^ length ts / (1 - c)) in *.
  assert (1 <= P) as HP.
  { unfold P. apply Rle_trans with (1 * 1); [lra|]. apply Rmult_le_compat; [lra|lra|apply pow_u_ge_1|].
    apply Rle_trans with (/ 1); [lra|]. apply Rinv_le; lra. }
  eapply (combine_errors _ P _ _ _ _ (INR (length ts) / n) eta g h).
  - done.
  - exact H4.
  - unfold Rdiv. apply (Rmult_le_compat_r (/ n)) in H2; [|lra]. eapply Rle_trans; [exact H2|]. right. field. lra.
  - unfold Rdiv. rewrite <- Rmult_minus_distr_r, Rabs_mult, (Rabs_pos_eq (/ n)) by lra.
    apply (Rmult_le_compat_r (/ n)) in H1; [|lra]. eapply Rle_trans; [exact H1|]. right. field. lra.
Qed.

(** ** Products of differences *)
Lemma product_near x y a b : finite (mul (sub x a) (sub y b)) ->
  near ((1 + u) ^ 3 - 1) eta (mul (sub x a) (sub y b)) ((B2R x - B2R a) * (B2R y - B2R b)).
Proof.
  intros Hf. unfold near.
  assert (finite (sub x a) /\ finite (sub y b)) as [Hs1 Hs2].
  { unfold fmul in Hf. destruct (sub x a) as [|[]| |], (sub y b) as [|[]| |]; done. }
  assert (finite x /\ finite a) as [Hx Ha] by (by destruct x as [|[]| |], a as [|[]| |]).
  assert (finite y /\ finite b) as [Hy Hb] by (by destruct y as [|[]| |], b as [|[]| |]).
  destruct (fmul_spec _ _ Hs1 Hs2) as [(_ & Hv & _)|[E _]]; [|by rewrite E in Hf].
  destruct (fsub_spec x a Hx Ha) as [(_ & Hd1 & _)|[E _]]; [|by rewrite E in Hs1].
  destruct (fsub_spec y b Hy Hb) as [(_ & Hd2 & _)|[E _]]; [|by rewrite E in Hs2].
  destruct (rnd_minus_error x a) as (e & He & Hr). destruct (rnd_minus_error y b) as (e' & He' & Hr').
  rewrite Hv, Hd1, Hd2, Hr, Hr'. clear Hv Hd1 Hd2 Hr Hr'.
  set (D := B2R x - B2R a) in *. set (D' := B2R y - B2R b) in *.
  destruct (rnd_error (D * (1 + e) * (D' * (1 + e')))) as (e2 & h & He2 & Hh & ->).
  set (f := (1 + e) * ((1 + e') * (1 + e2))).
  replace (D * (1 + e) * (D' * (1 + e')) * (1 + e2) + h - D * D') with (D * D' * (f - 1) + h) by (unfold f; ring).
  assert (Rabs (f - 1) <= (1 + u) * ((1 + u) * (1 + u)) - 1) as Hg.
  { apply near1_mul; [by apply near1_e|]. apply near1_mul; by apply near1_e. }
  eapply Rle_trans; [apply Rabs_triang|]. apply Rplus_le_compat; [|done].
  rewrite Rabs_mult, (Rmult_comm _ (Rabs (D * D'))).
  apply Rmult_le_compat_l; [apply Rabs_pos|]. eapply Rle_trans; [exact Hg|]. right. ring.
Qed.

Lemma square_error_near x y : finite (fsquare_error prec emax x y) ->
  near ((1 + u) ^ 3 - 1) eta (fsquare_error prec emax x y) ((B2R x - B2R y) ^ 2).
Proof.
  intros Hf. pose proof (product_near x x y y Hf) as H.
  replace ((B2R x - B2R y) ^ 2) with ((B2R x - B2R y) * (B2R x - B2R y)) by ring. exact H.
Qed.

(** The square of an element. *)
Lemma square_near x : finite (fsquare prec emax x) -> near ((1 + u) - 1) eta (fsquare prec emax x) (B2R x ^ 2).
Proof.
  intros Hf. unfold near, fsquare in *.
  assert (finite x) as Hx by (by destruct x as [|[]| |]).
  destruct (fmul_spec _ _ Hx Hx) as [(_ & -> & _)|[E _]]; [|by rewrite E in Hf].
  destruct (rnd_error (B2R x * B2R x)) as (e & h & He & Hh & ->).
  replace (B2R x * B2R x * (1 + e) + h - B2R x ^ 2) with (B2R x ^ 2 * e + h) by ring.
  eapply Rle_trans; [apply Rabs_triang|]. apply Rplus_le_compat; [|done].
  rewrite Rabs_mult, (Rmult_comm _ (Rabs (B2R x ^ 2))). apply Rmult_le_compat_l; [apply Rabs_pos|]. lra.
Qed.

Lemma near_zip (f : flt -> flt -> flt) (F : flt -> flt -> R) g h xs ys :
  (forall x y, finite (f x y) -> near g h (f x y) (F x y)) ->
  Forall (fun t => finite t) (zip_with f xs ys) -> Forall2 (near g h) (zip_with f xs ys) (zip_with F xs ys).
Proof.
  intros HF. revert ys. induction xs as [|x xs IH]; intros [|y ys] H; cbn in *; try constructor.
  - apply HF. by inversion H.
  - apply IH. by inversion H.
Qed.
Lemma near_map (f : flt -> flt) (F : flt -> R) g h xs :
  (forall x, finite (f x) -> near g h (f x) (F x)) ->
  Forall (fun t => finite t) (map f xs) -> Forall2 (near g h) (map f xs) (map F xs).
Proof.
  intros HF. induction xs as [|x xs IH]; intros H; cbn in *; constructor.
  - apply HF. by inversion H.
  - apply IH. by inversion H.
Qed.

Lemma squares_nonneg xs ys : Forall (fun T => 0 <= T) (zip_with (fun x y : flt => (B2R x - B2R y) ^ 2) xs ys).
Proof. revert ys. induction xs as [|x xs IH]; intros [|y ys]; cbn [zip_with]; constructor; [apply pow2_ge_0|apply IH]. Qed.

Lemma sse_error xs ys : length xs = length ys -> finite (fsse prec emax xs ys) ->
  let S := tsum (zip_with (fun x y : flt => (B2R x - B2R y) ^ 2) xs ys) in
  Rabs (B2R (fsse prec emax xs ys) - S) <=
    ((1 + u) ^ (length xs + 2) - 1) * S + (1 + u) ^ (length xs - 1) * (INR (length xs) * eta).
Proof.
  intros Hl Hf S. destruct (fold_finite_inv _ _ Hf) as [_ Hts].
  pose proof (near_zip _ _ _ _ _ _ square_error_near Hts) as Hn.
  pose proof (sum_near _ _ _ _ Hn Hf) as H. rewrite (tabs_tsum _ (squares_nonneg xs ys)) in H.
  rewrite zip_with_length_l_eq in H by done. fold S in H. change (fsum _ _ _) with (fsse prec emax xs ys) in H.
  assert (1 <= length xs \/ length xs = 0)%nat as [Hp|Hz] by lia.
  - replace ((1 + u) ^ (length xs + 2)) with ((1 + u) ^ (length xs - 1) * (1 + ((1 + u) ^ 3 - 1))); [done|].
    replace (length xs + 2)%nat with (length xs - 1 + 3)%nat by lia. rewrite pow_add. ring.
  - destruct xs; [|done]. unfold S. cbn. rewrite Rminus_0_r, Rabs_R0. lra.
Qed.

Lemma pow_add_3 n c : c < 1 -> (1 + u) ^ n / (1 - c) * (1 + ((1 + u) ^ 3 - 1)) = (1 + u) ^ (n + 3) / (1 - c).
Proof. intros. rewrite pow_add. field. lra. Qed.
Lemma unit_lt_1 c k : length_unit c k -> c < 1.
Proof. pose proof (u_lt_1 (prec := prec)). intros [->|[-> _]]; lra. Qed.

Lemma quotient_squares c xs ys k : (64 < emax)%Z -> length xs = length ys -> (1 <= length xs)%nat ->
  (1 <= Z.of_nat k < 2 ^ 64)%Z -> length_unit c k ->
  finite (quotient (zip_with (fsquare_error prec emax) xs ys) k) ->
  let M := tsum (zip_with (fun x y : flt => (B2R x - B2R y) ^ 2) xs ys) / INR k in
  Rabs (B2R (quotient (zip_with (fsquare_error prec emax) xs ys) k) - M) <=
    ((1 + u) ^ (length xs + 3) / (1 - c) - 1) * M + (1 + u) ^ length xs / (1 - c) * (INR (length xs) / INR k * eta) + eta.
Proof.
  intros He Hl Hlen Hn Hc Hf M. pose proof (quotient_finite_inv _ _ Hf) as Hs.
  destruct (fold_finite_inv _ _ Hs) as [_ Hts].
  pose proof (near_zip _ _ _ _ _ _ square_error_near Hts) as Hnear.
  assert (length (zip_with (fsquare_error prec emax) xs ys) = length xs) as El by (by apply zip_with_length_l_eq).
  assert (1 <= length (zip_with (fsquare_error prec emax) xs ys))%nat as Hlen' by (by rewrite El).
  pose proof (quotient_near c _ _ _ _ k He Hlen' Hn Hc Hnear Hf) as H. rewrite El in H.
  rewrite (tabs_tsum _ (squares_nonneg xs ys)), pow_add_3 in H by (by eapply unit_lt_1). exact H.
Qed.

(** ** Order of all numbers but NaNs *)
Definition rank (x : flt) : R :=
  match x with B754_infinity false => big | B754_infinity true => - big | _ => B2R x end.
Lemma rank_finite x : finite x -> - big < rank x < big.
Proof. intros Hx. replace (rank x) with (B2R x) by (by destruct x as [|[]| |]). pose proof (abs_B2R_lt_emax prec emax x) as H. apply Rabs_def2 in H. lra. Qed.
Lemma le_rank x y : is_nan x = false -> is_nan y = false -> le x y = true <-> rank x <= rank y.
Proof.
  intros Hx Hy. assert (0 < big) by apply bpow_gt_0.
  destruct (is_finite x) eqn:Fx, (is_finite y) eqn:Fy.
  - replace (rank x) with (B2R x) by (by destruct x as [|[]| |]).
    replace (rank y) with (B2R y) by (by destruct y as [|[]| |]). by apply le_finite.
  - pose proof (rank_finite x Fx). destruct y as [|[]| |]; try done; cbn [rank].
    + split; [|lra]. intros E. apply le_minf_inv in E. by subst x.
    + split; [lra|]. intros _. by apply le_pinf.
  - pose proof (rank_finite y Fy). destruct x as [|[]| |]; try done; cbn [rank].
    + split; [lra|]. intros _. by apply le_minf.
    + split; [|lra]. intros E. apply le_pinf_inv in E. by subst y.
  - destruct x as [|[]| |]; try done; destruct y as [|[]| |]; try done; cbn; split; done || lra.
Qed.
Lemma lt_rank x y : is_nan x = false -> is_nan y = false -> lt x y = true <-> rank x < rank y.
Proof.
  intros Hx Hy. assert (lt x y = negb (le y x)) as ->.
  { unfold flt_lt, flt_le, Bltb, Bleb, SpecFloat.SFltb, SpecFloat.SFleb.
    pose proof (Bcompare_swap _ _ x y) as E. unfold Bcompare in E. rewrite E.
    destruct (SpecFloat.SFcompare (B2SF x) (B2SF y)) as [[]|] eqn:E2; try done.
    exfalso. destruct x as [|[]| |[]], y as [|[]| |[]]; try done. }
  pose proof (le_rank y x Hy Hx) as H. destruct (le y x); cbn.
  - split; [done|]. intros. assert (rank y <= rank x) by (by apply H). lra.
  - split; [|done]. intros _. destruct (Rlt_or_le (rank x) (rank y)) as [|Hc]; [done|]. apply H in Hc. done.
Qed.
Lemma lt_rank_false x y : is_nan x = false -> is_nan y = false -> lt x y = false <-> rank y <= rank x.
Proof.
  intros Hx Hy. pose proof (lt_rank x y Hx Hy) as H. destruct (lt x y).
  - split; [done|]. intros. assert (rank x < rank y) by (by apply H). lra.
  - split; [|done]. intros _. destruct (Rle_or_lt (rank y) (rank x)) as [|Hc]; [done|]. apply H in Hc. done.
Qed.

Notation sound xs := (Forall (fun x : flt => is_nan x = false) xs).

Lemma fold_max a xs : is_nan a = false -> sound xs ->
  let m := fold_left (max_ lt) xs a in
  is_nan m = false /\ le a m = true /\ (forall x, x ∈ xs -> le x m = true) /\
  (m ∈ xs \/ (m = a /\ forall x, x ∈ xs -> lt x a = true)).
Proof.
  intros Ha Hxs. revert a Ha. induction Hxs as [|x xs Hx Hxs IH]; intros a Ha; cbn.
  - split_and!; [done|by apply le_rank; [done|done|lra]|set_solver|]. right. split; [done|set_solver].
  - assert (is_nan (max_ lt a x) = false) as Hm by (unfold max_; by destruct (lt x a)).
    destruct (IH _ Hm) as (H1 & H2 & H3 & H4). set (m := fold_left (max_ lt) xs (max_ lt a x)) in *.
    apply le_rank in H2; [|done|done].
    assert (rank a <= rank (max_ lt a x) /\ rank x <= rank (max_ lt a x)) as [G1 G2].
    { unfold max_. destruct (lt x a) eqn:E; [apply lt_rank in E; try done; lra|].
      apply lt_rank_false in E; try done. lra. }
    split_and!; [done|apply le_rank; [done|done|lra]| |].
    + intros y Hy. apply elem_of_cons in Hy as [->|Hy]; [apply le_rank; [done|done|lra]|by apply H3].
    + destruct H4 as [H4|[E H4]]; [left; set_solver|]. unfold max_ in *. destruct (lt x a) eqn:Elt.
      * right. split; [done|]. intros y Hy. apply elem_of_cons in Hy as [->|Hy]; [done|by apply H4].
      * left. rewrite E. set_solver.
Qed.

Lemma fold_min a xs : is_nan a = false -> sound xs ->
  let m := fold_left (min_ lt) xs a in
  is_nan m = false /\ le m a = true /\ (forall x, x ∈ xs -> le m x = true) /\
  (m ∈ xs \/ (m = a /\ forall x, x ∈ xs -> lt a x = true)).
Proof.
  intros Ha Hxs. revert a Ha. induction Hxs as [|x xs Hx Hxs IH]; intros a Ha; cbn.
  - split_and!; [done|by apply le_rank; [done|done|lra]|set_solver|]. right. split; [done|set_solver].
  - assert (is_nan (min_ lt a x) = false) as Hm by (unfold min_; by destruct (lt a x)).
    destruct (IH _ Hm) as (H1 & H2 & H3 & H4). set (m := fold_left (min_ lt) xs (min_ lt a x)) in *.
    apply le_rank in H2; [|done|done].
    assert (rank (min_ lt a x) <= rank a /\ rank (min_ lt a x) <= rank x) as [G1 G2].
    { unfold min_. destruct (lt a x) eqn:E; [apply lt_rank in E; try done; lra|].
      apply lt_rank_false in E; try done. lra. }
    split_and!; [done|apply le_rank; [done|done|lra]| |].
    + intros y Hy. apply elem_of_cons in Hy as [->|Hy]; [apply le_rank; [done|done|lra]|by apply H3].
    + destruct H4 as [H4|[E H4]]; [left; set_solver|]. unfold min_ in *. destruct (lt a x) eqn:Elt.
      * right. split; [done|]. intros y Hy. apply elem_of_cons in Hy as [->|Hy]; [done|by apply H4].
      * left. rewrite E. set_solver.
Qed.

(** A NaN makes the fold forget. *)
Lemma lt_nan_l x y : is_nan x = true -> lt x y = false.
Proof. by destruct x, y. Qed.
Lemma lt_nan_r x y : is_nan y = true -> lt x y = false.
Proof. by destruct x as [|[]| |[]], y. Qed.
Lemma fold_max_forgets a xs n y ys : is_nan n = true ->
  fold_left (max_ lt) (xs ++ n :: y :: ys) a = fold_left (max_ lt) ys y.
Proof.
  intros Hn. rewrite fold_left_app. cbn. f_equal. unfold max_. rewrite (lt_nan_l n) by done. by rewrite lt_nan_r.
Qed.
Lemma fold_min_forgets a xs n y ys : is_nan n = true ->
  fold_left (min_ lt) (xs ++ n :: y :: ys) a = fold_left (min_ lt) ys y.
Proof.
  intros Hn. rewrite fold_left_app. cbn. f_equal. unfold min_. rewrite (lt_nan_r _ n) by done. by rewrite lt_nan_l.
Qed.

(** ** is_approx *)
Notation eps := (bpow radix2 (1 - prec)).
Notation epsilon := (fepsilon prec emax).

Lemma format_bpow e : (emin <= e)%Z -> generic_format radix2 fexp (bpow radix2 e).
Proof. intros H. by apply (generic_format_FLT_bpow radix2 emin prec). Qed.

Lemma eps_format : generic_format radix2 fexp eps.
Proof. apply format_bpow. pose proof (emax_ge_2 (emax := emax)). unfold SpecFloat.emin. lia. Qed.

Lemma normalize_bpow e : (emin <= e < emax)%Z ->
  finite (binary_normalize prec emax Hprec Hemax mode_NE 1 e false) /\
  B2R (binary_normalize prec emax Hprec Hemax mode_NE 1 e false) = bpow radix2 e.
Proof.
  intros He. pose proof (binary_normalize_correct prec emax Hprec Hemax mode_NE 1 e false) as H.
  assert (F2R (Float radix2 1 e) = bpow radix2 e) as E by (unfold F2R; cbn; lra). cbv zeta in H. rewrite E in H.
  cbn [round_mode] in H. rewrite round_generic in H; [|apply valid_rnd_N|apply format_bpow; lia].
  rewrite Rlt_bool_true in H; [by destruct H as (H1 & H2 & _)|].
  rewrite Rabs_pos_eq by apply bpow_ge_0. apply bpow_lt. lia.
Qed.

Lemma epsilon_spec : finite epsilon /\ B2R epsilon = eps.
Proof.
  apply normalize_bpow. pose proof (emax_ge_2 (emax := emax)). pose proof (prec_pos (prec := prec)).
  unfold SpecFloat.emin. lia.
Qed.

Lemma tiny_spec : finite (ftiny prec emax) /\ B2R (ftiny prec emax) = bpow radix2 (2 - emax).
Proof.
  apply normalize_bpow. pose proof (emax_ge_2 (emax := emax)). pose proof (prec_pos (prec := prec)).
  unfold SpecFloat.emin. lia.
Qed.

Lemma fabs_finite x : finite x -> finite (fabs prec emax x) /\ B2R (fabs prec emax x) = Rabs (B2R x).
Proof.
  intros Hx. unfold fabs. destruct (lt x zero) eqn:E.
  - apply lt_finite in E; [|done|done]. cbn in E. unfold fopp. rewrite is_finite_Bopp, B2R_Bopp. split; [done|].
    rewrite Rabs_left1; lra.
  - split; [done|]. rewrite Rabs_pos_eq; [done|]. destruct (Rle_or_lt 0 (B2R x)) as [|Hc]; [done|].
    assert (lt x zero = true) as E2 by (by apply lt_finite). congruence.
Qed.

Lemma approx_rounds x y : finite x -> finite y -> fis_approx prec emax x y = true <-> Rabs (rnd (B2R x - B2R y)) <= eps.
Proof.
  intros Hx Hy. unfold fis_approx. destruct epsilon_spec as [He1 He2].
  destruct (fsub_spec x y Hx Hy) as [(H1 & H2 & _)|(-> & _ & H)].
  - destruct (fabs_finite _ H1) as [G1 G2]. rewrite (le_finite _ _ G1 He1), G2, H2, He2. done.
  - assert (eps < big) as Hlt.
    { apply bpow_lt. pose proof (prec_pos (prec := prec)). pose proof (emax_ge_2 (emax := emax)). lia. }
    split; [|lra]. intros E. exfalso.
    replace (fabs prec emax (B754_infinity (Bsign x))) with (@B754_infinity prec emax false) in E by (by destruct (Bsign x)).
    apply le_pinf_inv in E. rewrite E in He1. done.
Qed.

Lemma approx_close x y : finite x -> finite y -> Rabs (B2R x - B2R y) <= eps -> fis_approx prec emax x y = true.
Proof.
  intros Hx Hy H. apply approx_rounds; [done|done|].
  apply abs_round_le_generic; [apply fexp_valid|apply valid_rnd_N|apply eps_format|done].
Qed.

Lemma rnd_abs v : Rabs (rnd v) = rnd (Rabs v).
Proof.
  unfold Rabs at 2. destruct (Rcase_abs v).
  - rewrite rnd_opp, Rabs_left1; [done|]. apply rnd_nonpos. lra.
  - apply Rabs_pos_eq, rnd_nonneg. lra.
Qed.

Lemma succ_eps : succ radix2 fexp eps = eps * (1 + 2 * u).
Proof.
  rewrite succ_eq_pos by apply bpow_ge_0. rewrite ulp_bpow.
  replace (fexp (1 - prec + 1)) with (1 - prec + (1 + - prec))%Z.
  - rewrite bpow_plus. rewrite (bpow_plus _ 1). change (bpow radix2 1) with 2. unfold IeeeProofs.u. ring.
  - unfold SpecFloat.fexp, SpecFloat.emin. pose proof (prec_emax (prec := prec) (emax := emax)). lia.
Qed.

Lemma approx_far x y : finite x -> finite y -> fis_approx prec emax x y = true ->
  Rabs (B2R x - B2R y) <= eps * (1 + u).
Proof.
  intros Hx Hy H. apply approx_rounds in H; [|done|done]. rewrite rnd_abs in H.
  destruct (Rle_or_lt (Rabs (B2R x - B2R y)) (eps * (1 + u))) as [|Hc]; [done|].
  assert (succ radix2 fexp eps <= rnd (Rabs (B2R x - B2R y))) as Hs.
  { apply round_N_ge_midp; [apply fexp_valid|apply generic_format_succ; [apply fexp_valid|apply eps_format]|].
    rewrite pred_succ; [|apply fexp_valid|apply eps_format]. rewrite succ_eps. lra. }
  rewrite succ_eps in Hs. pose proof (u_pos (prec := prec)). assert (0 < eps) by apply bpow_gt_0. nra.
Qed.

(** Numbers of absolute value at least 2 are multiples of twice epsilon. *)
Lemma coarse (x : flt) : 2 <= Rabs (B2R x) -> exists z, B2R x = IZR z * (2 * eps).
Proof.
  intros Hx. pose proof (format x) as Hf. unfold generic_format in Hf. rewrite Hf. unfold F2R. cbn [Fnum Fexp].
  set (m := Ztrunc _). assert (2 - prec <= cexp radix2 fexp (B2R x))%Z as Hc.
  { unfold cexp. assert (2 <= mag radix2 (B2R x))%Z as Hm.
    { apply mag_ge_bpow. exact Hx. }
    unfold SpecFloat.fexp. lia. }
  set (c := cexp radix2 fexp (B2R x)) in *.
  exists (m * 2 ^ (c - (2 - prec)))%Z. rewrite mult_IZR, (IZR_Zpower radix2) by lia.
  replace (2 * eps) with (bpow radix2 (2 - prec)).
  - rewrite Rmult_assoc, <- bpow_plus. do 2 f_equal. lia.
  - replace (2 - prec)%Z with (1 + (1 - prec))%Z by lia. rewrite bpow_plus. done.
Qed.

Lemma approx_coarse x y : finite x -> finite y -> 2 <= Rabs (B2R x) -> 2 <= Rabs (B2R y) ->
  fis_approx prec emax x y = true <-> B2R x = B2R y.
Proof.
  intros Hx Hy H2x H2y. assert (0 < eps) as He by apply bpow_gt_0. pose proof (u_pos (prec := prec)). pose proof (u_lt_1 (prec := prec)). split.
  - intros H1. apply approx_far in H1; [|done|done]. destruct (coarse x H2x) as (zx & Ex), (coarse y H2y) as (zy & Ey).
    rewrite Ex, Ey in *. destruct (decide (zx = zy)) as [->|Hn]; [done|]. exfalso.
    rewrite <- Rmult_minus_distr_r, <- minus_IZR, Rabs_mult, <- abs_IZR in H1. rewrite (Rabs_pos_eq (2 * eps)) in H1 by lra.
    assert (1 <= IZR (Z.abs (zx - zy))) by (apply IZR_le; lia).
    assert (1 * (2 * eps) <= IZR (Z.abs (zx - zy)) * (2 * eps)) by (apply Rmult_le_compat_r; lra). nra.
  - intros E. apply approx_close; [done|done|]. rewrite E, Rminus_eq_0, Rabs_R0. lra.
Qed.

Lemma approx_comm x y : fis_approx prec emax x y = fis_approx prec emax y x.
Proof.
  destruct (is_finite x) eqn:Hx, (is_finite y) eqn:Hy.
  - pose proof (approx_rounds x y Hx Hy) as H1. pose proof (approx_rounds y x Hy Hx) as H2.
    replace (B2R y - B2R x) with (- (B2R x - B2R y)) in H2 by lra. rewrite rnd_opp, Rabs_Ropp in H2.
    destruct (fis_approx prec emax x y), (fis_approx prec emax y x); try done; [symmetry; apply H2, H1; done|apply H1, H2; done].
  - destruct x as [[]|[]| |[]], y as [[]|[]| |[]]; try done.
  - destruct x as [[]|[]| |[]], y as [[]|[]| |[]]; try done.
  - destruct x as [[]|[]| |[]], y as [[]|[]| |[]]; try done.
Qed.

Lemma approx_not_finite x y : is_finite x = false \/ is_finite y = false -> fis_approx prec emax x y = false.
Proof.
  intros H. unfold fis_approx. destruct epsilon_spec as [He _].
  assert (le (B754_infinity false) epsilon = false) as Hp by (by destruct epsilon as [|[]| |[]]).
  assert (sub x y = B754_nan \/ exists s, sub x y = B754_infinity s) as [->|([] & ->)]; [|done|exact Hp|exact Hp].
  destruct H as [H|H].
  - destruct x as [|[]| |]; try done; destruct y as [|[]| |]; cbn; eauto.
  - destruct y as [|[]| |]; try done; destruct x as [|[]| |]; cbn; eauto.
Qed.
End ieee.
