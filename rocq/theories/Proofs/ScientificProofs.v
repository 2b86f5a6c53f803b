(** Proofs about the statistics functions. *)
From Coq Require Import Reals Lra Psatz.
From Verif Require Import Base.Cpp Model.Numeric Model.Scientific Spec.NumericSpec Spec.ScientificSpec.
From Verif Require Import Proofs.NumericProofs.
Set Default Proof Using "Type".
Local Open Scope R_scope.

(** ** Sums *)
Section sums.
Context {A : Type}.
Implicit Types (f g : A -> R) (l : list A).
Definition S_ f l : R := Rsum (map f l).

Lemma S_plus f g l : S_ (fun x => f x + g x) l = S_ f l + S_ g l.
Proof. unfold S_, Rsum. induction l as [|x l IH]; simpl; lra. Qed.
Lemma S_minus f g l : S_ (fun x => f x - g x) l = S_ f l - S_ g l.
Proof. unfold S_, Rsum. induction l as [|x l IH]; simpl; lra. Qed.
Lemma S_scal c f l : S_ (fun x => c * f x) l = c * S_ f l.
Proof. unfold S_, Rsum. induction l as [|x l IH]; simpl; lra. Qed.
Lemma S_const c l : S_ (fun _ => c) l = c * INR (length l).
Proof.
  unfold S_, Rsum. induction l as [|x l IH]; [simpl; lra|]. cbn [map foldr length]. rewrite IH, S_INR. lra.
Qed.
Lemma S_ext f g l : (forall x, x ∈ l -> f x = g x) -> S_ f l = S_ g l.
Proof.
  unfold S_, Rsum. intros H. induction l as [|x l IH]; simpl; [done|].
  rewrite (H x) by set_solver. rewrite IH; [done|]. intros; apply H; set_solver.
Qed.
Lemma S_ge0 f l : (forall x, x ∈ l -> 0 <= f x) -> 0 <= S_ f l.
Proof.
  unfold S_, Rsum. intros H. induction l as [|x l IH]; simpl; [lra|].
  assert (0 <= f x) by (apply H; set_solver).
  assert (0 <= foldr Rplus 0 (map f l)) by (apply IH; intros; apply H; set_solver). lra.
Qed.
Lemma S_le f g l : (forall x, x ∈ l -> f x <= g x) -> S_ f l <= S_ g l.
Proof.
  intros H. assert (0 <= S_ (fun x => g x - f x) l) as H0.
  { apply S_ge0. intros x Hx. specialize (H x Hx). lra. }
  rewrite S_minus in H0. lra.
Qed.
Lemma S_zero f l : (forall x, x ∈ l -> 0 <= f x) -> S_ f l = 0 -> forall x, x ∈ l -> f x = 0.
Proof.
  intros H. induction l as [|y l IH]; intros Hs x Hx; [by apply elem_of_nil in Hx|].
  unfold S_, Rsum in *. simpl in Hs. assert (0 <= f y) by (apply H; set_solver).
  assert (0 <= foldr Rplus 0 (map f l)) by (apply S_ge0; intros; apply H; set_solver).
  apply elem_of_cons in Hx as [->|Hx]; [lra|]. apply IH; [|lra|done]. intros; apply H; set_solver.
Qed.
Lemma S_app f l1 l2 : S_ f (l1 ++ l2) = S_ f l1 + S_ f l2.
Proof. unfold S_, Rsum. induction l1 as [|x l1 IH]; simpl; lra. Qed.
End sums.

Lemma S_map {A B} (h : A -> B) f l : S_ f (map h l) = S_ (fun x => f (h x)) l.
Proof. unfold S_. by rewrite map_map. Qed.
Lemma S_id xs : S_ (fun x => x) xs = Rsum xs.
Proof. unfold S_. by rewrite map_id. Qed.

Lemma zip_with_map {A B C} (f : A -> B -> C) xs ys : zip_with f xs ys = map (fun p => f p.1 p.2) (zip xs ys).
Proof. revert ys. induction xs as [|x xs IH]; intros [|y ys]; simpl; [done..|]. by rewrite IH. Qed.
Lemma S_zip_fst {A B} (f : A -> R) (xs : list A) (ys : list B) : length xs = length ys ->
  S_ (fun p => f p.1) (zip xs ys) = S_ f xs.
Proof.
  unfold S_, Rsum. revert ys. induction xs as [|x xs IH]; intros [|y ys] H; simpl in *; [done..|].
  rewrite IH by lia. done.
Qed.
Lemma S_zip_snd {A B} (f : B -> R) (xs : list A) (ys : list B) : length xs = length ys ->
  S_ (fun p => f p.2) (zip xs ys) = S_ f ys.
Proof.
  unfold S_, Rsum. revert ys. induction xs as [|x xs IH]; intros [|y ys] H; simpl in *; [done..|].
  rewrite IH by lia. done.
Qed.

(** ** Lifted numbers *)
Notation lift := (map (@Some R)).

Lemma nsum_lift xs : nsum (lift xs) = Some (Rsum xs).
Proof.
  unfold nsum. assert (forall a, fold_left nadd (lift xs) (Some a) = Some (a + Rsum xs)) as H.
  { unfold Rsum. induction xs as [|x xs IH]; intros a; simpl; [f_equal; lra|]. rewrite IH. f_equal. lra. }
  rewrite H. f_equal. lra.
Qed.
Lemma map_lift (f : num -> num) (g : R -> R) xs : (forall x, f (Some x) = Some (g x)) ->
  map f (lift xs) = lift (map g xs).
Proof. intros H. rewrite !map_map. apply map_ext. done. Qed.
Lemma zip_lift (f : num -> num -> num) (g : R -> R -> R) xs ys : (forall x y, f (Some x) (Some y) = Some (g x y)) ->
  zip_with f (lift xs) (lift ys) = lift (zip_with g xs ys).
Proof.
  intros H. revert ys. induction xs as [|x xs IH]; intros [|y ys]; simpl; [done..|]. by rewrite IH, H.
Qed.
Lemma imap_lift (f : nat -> num -> num) (g : nat -> R -> R) xs : (forall i x, f i (Some x) = Some (g i x)) ->
  imap f (lift xs) = lift (imap g xs).
Proof.
  revert f g. induction xs as [|x xs IH]; intros f g H; simpl; [done|]. rewrite H. f_equal.
  apply (IH (f ∘ S) (g ∘ S)). intros; apply H.
Qed.

Lemma len_pos {A} (xs : list A) : xs <> [] -> 0 < INR (length xs).
Proof. intros H. destruct xs as [|x xs]; [done|]. apply lt_0_INR. simpl. lia. Qed.
Lemma of_size_INR n : of_size n = Some (INR n).
Proof. unfold of_size, of_Z. by rewrite INR_IZR_INZ. Qed.
Lemma ndiv_ok x y : y <> 0 -> ndiv (Some x) (Some y) = Some (x / y).
Proof. intros H. simpl. by destruct (Req_EM_T y 0). Qed.
Lemma size_minus_1 n : (1 <= n)%nat -> (Z.of_nat n < 2 ^ 64)%Z -> of_size_minus_1 n = Some (INR n - 1).
Proof.
  intros H1 H2. unfold of_size_minus_1, of_Z. rewrite conv_id; [|done|].
  - rewrite minus_IZR, <- INR_IZR_INZ. done.
  - apply in_range_spec. change (lo size_t) with 0%Z. change (hi size_t) with (2 ^ 64 - 1)%Z. lia.
Qed.

Lemma mean_ok xs : xs <> [] -> mean (lift xs) = Some (average xs).
Proof.
  intros H. unfold mean. rewrite nsum_lift, map_length, of_size_INR. apply ndiv_ok.
  pose proof (len_pos xs H). lra.
Qed.

Lemma dev_zero xs : xs <> [] -> S_ (fun x => x - average xs) xs = 0.
Proof.
  intros H. rewrite S_minus, S_const, S_id. unfold average. pose proof (len_pos xs H). field. lra.
Qed.

(** ** Mean, errors *)
Lemma sse_ok xs ys : sse (lift xs) (lift ys) = Some (Rsum (zip_with (fun x y => Rsqr (x - y)) xs ys)).
Proof. unfold sse. rewrite (zip_lift _ (fun x y => Rsqr (x - y))) by done. apply nsum_lift. Qed.

Lemma mse_ok xs ys : length xs = length ys -> xs <> [] ->
  mse (lift xs) (lift ys) = Some (Rsum (zip_with (fun x y => Rsqr (x - y)) xs ys) / INR (length xs)).
Proof.
  intros Hl Hne. unfold mse. rewrite (zip_lift _ (fun x y => Rsqr (x - y))) by done. rewrite mean_ok.
  - unfold average. rewrite zip_with_length, <- Hl, Nat.min_id. done.
  - intros E. apply (f_equal length) in E. rewrite zip_with_length, <- Hl, Nat.min_id in E. by destruct xs.
Qed.

Lemma nsqrt_ok x : 0 <= x -> nsqrt (Some x) = Some (R_sqrt.sqrt x).
Proof. intros H. simpl. destruct (Rlt_dec x 0); [lra|done]. Qed.

Lemma Rsum_sq_ge0 xs ys : 0 <= Rsum (zip_with (fun x y => Rsqr (x - y)) xs ys).
Proof. rewrite zip_with_map. apply S_ge0. intros. apply Rle_0_sqr. Qed.

Lemma rmse_ok xs ys : length xs = length ys -> xs <> [] ->
  rmse (lift xs) (lift ys) = Some (R_sqrt.sqrt (Rsum (zip_with (fun x y => Rsqr (x - y)) xs ys) / INR (length xs))).
Proof.
  intros Hl Hne. unfold rmse. rewrite mse_ok by done. apply nsqrt_ok.
  apply Rmult_le_pos; [apply Rsum_sq_ge0|]. apply Rlt_le, Rinv_0_lt_compat, len_pos, Hne.
Qed.

Lemma rms_ok xs : xs <> [] -> rms (lift xs) = Some (R_sqrt.sqrt (Rsum (map Rsqr xs) / INR (length xs))).
Proof.
  intros Hne. unfold rms. rewrite (map_lift _ Rsqr) by done. rewrite mean_ok by (by destruct xs).
  unfold average. rewrite map_length. apply nsqrt_ok. apply Rmult_le_pos.
  - apply (S_ge0 Rsqr). intros. apply Rle_0_sqr.
  - apply Rlt_le, Rinv_0_lt_compat, len_pos, Hne.
Qed.

(** ** Variance, covariance, correlation *)

Lemma divisor_pos b n : enough b n -> 0 < divisor b n.
Proof.
  intros [H _]. unfold divisor. destruct b.
  - apply le_INR in H. simpl in H. lra.
  - apply lt_0_INR. lia.
Qed.
Lemma enough_ne b (xs : list R) : enough b (length xs) -> xs <> [].
Proof. intros [H _] ->. simpl in H. destruct b; lia. Qed.
Lemma ndiv_divisor (b : bool) n s : enough b n ->
  (if b then ndiv (Some s) (of_size_minus_1 n) else ndiv (Some s) (of_size n)) = Some (s / divisor b n).
Proof.
  intros H. pose proof (divisor_pos b n H) as Hd. destruct H as [H1 H2]. destruct b; unfold divisor in *.
  - rewrite size_minus_1; [apply ndiv_ok; lra|lia|done].
  - rewrite of_size_INR. apply ndiv_ok. lra.
Qed.

Lemma variance_ok b xs : enough b (length xs) -> variance b (lift xs) = Some (sq_dev xs / divisor b (length xs)).
Proof.
  intros H. unfold variance. rewrite mean_ok by (by eapply enough_ne).
  rewrite (map_lift _ (fun x => Rsqr (x - average xs))) by done. rewrite nsum_lift, map_length.
  by apply ndiv_divisor.
Qed.
Lemma sq_dev_ge0 xs : 0 <= sq_dev xs.
Proof. apply (S_ge0 (fun x => Rsqr (x - average xs))). intros. apply Rle_0_sqr. Qed.
Lemma sq_dev_zero xs : sq_dev xs = 0 <-> constant xs.
Proof.
  split.
  - intros H x y Hx Hy. pose proof (S_zero (fun x => Rsqr (x - average xs)) xs) as Z.
    assert (forall x, x ∈ xs -> x = average xs) as E.
    { intros z Hz. specialize (Z (fun _ _ => Rle_0_sqr _) H z Hz). apply Rsqr_0_uniq in Z. lra. }
    rewrite (E x Hx), (E y Hy). done.
  - intros H. destruct xs as [|x0 xs]; [done|]. set (l := x0 :: xs) in *.
    assert (average l = x0) as E.
    { unfold average. rewrite <- S_id. rewrite (S_ext _ (fun _ => x0)).
      - rewrite S_const. field. assert (0 < INR (length l)) by (apply len_pos; done). lra.
      - intros y Hy. apply H; set_solver. }
    change (S_ (fun x => Rsqr (x - average l)) l = 0). rewrite (S_ext _ (fun _ => 0)).
    + rewrite S_const. lra.
    + intros y Hy. rewrite E. rewrite (H y x0) by set_solver. unfold Rsqr. lra.
Qed.
Lemma sq_dev_pos xs : ~ constant xs -> 0 < sq_dev xs.
Proof.
  intros H. pose proof (sq_dev_ge0 xs). destruct (Rle_lt_or_eq_dec _ _ H0) as [|E]; [done|].
  destruct H. by apply sq_dev_zero.
Qed.
Lemma Rdiv_ge0 a b : 0 <= a -> 0 < b -> 0 <= a / b.
Proof. intros. apply Rmult_le_pos; [done|]. by apply Rlt_le, Rinv_0_lt_compat. Qed.
Lemma Rdiv_gt0 a b : 0 < a -> 0 < b -> 0 < a / b.
Proof. intros. apply Rmult_lt_0_compat; [done|]. by apply Rinv_0_lt_compat. Qed.

Lemma std_ok b xs : enough b (length xs) ->
  standard_deviation b (lift xs) = Some (R_sqrt.sqrt (sq_dev xs / divisor b (length xs))).
Proof.
  intros H. unfold standard_deviation. rewrite variance_ok by done. apply nsqrt_ok.
  apply Rdiv_ge0; [apply sq_dev_ge0|by apply divisor_pos].
Qed.

Lemma covariance_ok b xs ys : enough b (length xs) -> length xs = length ys ->
  covariance b (lift xs) (lift ys) = Some (cross_dev xs ys / divisor b (length xs)).
Proof.
  intros H Hl. unfold covariance. rewrite mean_ok by (by eapply enough_ne).
  rewrite mean_ok by (apply enough_ne with b; by rewrite <- Hl).
  rewrite (zip_lift _ (fun x y => (x - average xs) * (y - average ys))) by done.
  rewrite nsum_lift, map_length. by apply ndiv_divisor.
Qed.

Lemma zip_with_diag_ {A B} (f : A -> A -> B) xs : zip_with f xs xs = map (fun x => f x x) xs.
Proof. induction xs as [|x xs IH]; simpl; [done|]. by rewrite IH. Qed.
Lemma covariance_self b xs : covariance b xs xs = variance b xs.
Proof. unfold covariance, variance. by rewrite zip_with_diag_. Qed.
Lemma cross_dev_self xs : cross_dev xs xs = sq_dev xs.
Proof. unfold cross_dev, sq_dev. by rewrite zip_with_diag_. Qed.
Lemma cross_dev_comm xs ys : cross_dev xs ys = cross_dev ys xs.
Proof.
  unfold cross_dev. f_equal. generalize (average xs), (average ys). intros mx my.
  revert ys. induction xs as [|x xs IH]; intros [|y ys]; simpl; [done..|]. rewrite IH. f_equal. lra.
Qed.

Lemma average_eq xs : xs <> [] -> average xs = Rsum xs * / INR (length xs).
Proof. done. Qed.

(** The sum of squared residuals, completed to squares. *)
Lemma residual_square c1 c2 xs ys : length xs = length ys -> xs <> [] ->
  residual_ss c1 c2 xs ys = sq_dev ys - 2 * c1 * cross_dev xs ys + c1 * c1 * sq_dev xs
    + INR (length xs) * Rsqr (average ys - c1 * average xs - c2).
Proof.
  intros Hl Hne. assert (ys <> []) as Hne2 by (intros ->; by destruct xs).
  unfold residual_ss. rewrite zip_with_map.
  set (mx := average xs). set (my := average ys). set (d := my - c1 * mx - c2).
  change (S_ (fun p : R * R => Rsqr (p.2 - (c1 * p.1 + c2))) (zip xs ys) = sq_dev ys - 2 * c1 * cross_dev xs ys + c1 * c1 * sq_dev xs
    + INR (length xs) * Rsqr d).
  rewrite (S_ext _ (fun p => (Rsqr (p.2 - my) - 2 * c1 * ((p.1 - mx) * (p.2 - my)) + c1 * c1 * Rsqr (p.1 - mx))
     + (2 * d * (p.2 - my) - 2 * d * c1 * (p.1 - mx) + Rsqr d))).
  2: { intros p _. unfold d, Rsqr. lra. }
  rewrite !S_plus, !S_minus, !S_scal, S_const.
  rewrite (S_zip_snd (fun y => Rsqr (y - my))), (S_zip_fst (fun x => Rsqr (x - mx))),
    (S_zip_snd (fun y => y - my)), (S_zip_fst (fun x => x - mx)) by done.
  unfold my, mx. rewrite !dev_zero by done. rewrite zip_with_length, <- Hl, Nat.min_id.
  change (S_ (fun x : R => Rsqr (x - average xs)) xs) with (sq_dev xs).
  change (S_ (fun x : R => Rsqr (x - average ys)) ys) with (sq_dev ys).
  unfold cross_dev. rewrite (zip_with_map (fun x y => (x - average xs) * (y - average ys))).
  change (Rsum (map (fun p : R * R => (p.1 - average xs) * (p.2 - average ys)) (zip xs ys)))
    with (S_ (fun p : R * R => (p.1 - average xs) * (p.2 - average ys)) (zip xs ys)). ring.
Qed.

Lemma residual_ge0 c1 c2 xs ys : 0 <= residual_ss c1 c2 xs ys.
Proof. unfold residual_ss. rewrite zip_with_map. apply S_ge0. intros. apply Rle_0_sqr. Qed.

Lemma cauchy_schwarz xs ys : length xs = length ys -> ~ constant xs ->
  Rsqr (cross_dev xs ys) <= sq_dev xs * sq_dev ys.
Proof.
  intros Hl Hc. assert (xs <> []) as Hne by (intros ->; destruct Hc; intros ? ? H; by apply elem_of_nil in H).
  pose proof (sq_dev_pos xs Hc) as Hp. set (b := cross_dev xs ys / sq_dev xs).
  pose proof (residual_ge0 b (average ys - b * average xs) xs ys) as H.
  rewrite residual_square in H by done.
  replace (average ys - b * average xs - (average ys - b * average xs)) with 0 in H by lra.
  rewrite Rsqr_0, Rmult_0_r, Rplus_0_r in H.
  assert (cross_dev xs ys = b * sq_dev xs) as E by (unfold b; field; lra).
  rewrite E in *. unfold Rsqr. nra.
Qed.

Lemma correlation_ok b xs ys : enough b (length xs) -> length xs = length ys -> ~ constant xs -> ~ constant ys ->
  correlation b (lift xs) (lift ys) = Some (cross_dev xs ys / (R_sqrt.sqrt (sq_dev xs) * R_sqrt.sqrt (sq_dev ys))).
Proof.
  intros H Hl Hx Hy. unfold correlation. rewrite covariance_ok by done. rewrite !std_ok by (done || by rewrite <- Hl).
  rewrite <- Hl. pose proof (divisor_pos b _ H) as Hd. set (d := divisor b (length xs)) in *.
  pose proof (sq_dev_pos xs Hx). pose proof (sq_dev_pos ys Hy).
  assert (0 < R_sqrt.sqrt (sq_dev xs)) by (by apply sqrt_lt_R0). assert (0 < R_sqrt.sqrt (sq_dev ys)) by (by apply sqrt_lt_R0).
  assert (0 < R_sqrt.sqrt d) as Hsd by (by apply sqrt_lt_R0).
  rewrite !sqrt_div_alt by done. assert (R_sqrt.sqrt d * R_sqrt.sqrt d = d) as Ed by (apply sqrt_sqrt; lra).
  change (nmul (Some ?x) (Some ?y)) with (Some (x * y)). rewrite ndiv_ok.
  - f_equal. replace (R_sqrt.sqrt (sq_dev xs) / R_sqrt.sqrt d * (R_sqrt.sqrt (sq_dev ys) / R_sqrt.sqrt d))
      with (R_sqrt.sqrt (sq_dev xs) * R_sqrt.sqrt (sq_dev ys) / d) by (rewrite <- Ed at 1; field; lra).
    field. split_and!; lra.
  - assert (0 < R_sqrt.sqrt (sq_dev xs) / R_sqrt.sqrt d) by (by apply Rdiv_gt0).
    assert (0 < R_sqrt.sqrt (sq_dev ys) / R_sqrt.sqrt d) by (by apply Rdiv_gt0). nra.
Qed.

Lemma ratio_bound c a b : 0 < a -> 0 < b -> Rsqr c <= a * b -> -1 <= c / (R_sqrt.sqrt a * R_sqrt.sqrt b) <= 1.
Proof.
  intros Ha Hb H. rewrite <- sqrt_mult by lra. assert (0 < a * b) as Hab by nra.
  assert (0 < R_sqrt.sqrt (a * b)) as Hs by (by apply sqrt_lt_R0).
  assert (Rabs c <= R_sqrt.sqrt (a * b)) as Hc.
  { rewrite <- sqrt_Rsqr_abs. by apply sqrt_le_1_alt. }
  assert (- R_sqrt.sqrt (a * b) <= c <= R_sqrt.sqrt (a * b)) by (unfold Rabs in Hc; destruct (Rcase_abs c); lra).
  clear Hc. split.
  - apply (Rmult_le_reg_r (R_sqrt.sqrt (a * b))); [done|]. unfold Rdiv. rewrite Rmult_assoc, Rinv_l by lra. lra.
  - apply (Rmult_le_reg_r (R_sqrt.sqrt (a * b))); [done|]. unfold Rdiv. rewrite Rmult_assoc, Rinv_l by lra. lra.
Qed.

(** Data on a line. *)
Lemma average_line a b xs : xs <> [] -> average (map (fun x => a * x + b) xs) = a * average xs + b.
Proof.
  intros H. unfold average. rewrite map_length. pose proof (len_pos xs H).
  change (Rsum (map (fun x => a * x + b) xs)) with (S_ (fun x => a * x + b) xs).
  rewrite S_plus, S_scal, S_const, S_id. field. lra.
Qed.
Lemma cross_dev_line a b xs : xs <> [] -> cross_dev xs (map (fun x => a * x + b) xs) = a * sq_dev xs.
Proof.
  intros H. unfold cross_dev. rewrite average_line by done.
  replace (zip_with (fun x y => (x - average xs) * (y - (a * average xs + b))) xs (map (fun x => a * x + b) xs))
    with (map (fun x => a * Rsqr (x - average xs)) xs).
  - apply (S_scal a (fun x => Rsqr (x - average xs))).
  - generalize (average xs). intros m. clear H. induction xs as [|x xs IH]; simpl; [done|]. rewrite IH. f_equal. unfold Rsqr. lra.
Qed.
Lemma sq_dev_line a b xs : xs <> [] -> sq_dev (map (fun x => a * x + b) xs) = a * a * sq_dev xs.
Proof.
  intros H. unfold sq_dev. rewrite average_line by done. rewrite map_map.
  change (S_ (fun x => Rsqr (a * x + b - (a * average xs + b))) xs = a * a * S_ (fun x => Rsqr (x - average xs)) xs).
  rewrite <- S_scal. apply S_ext. intros. unfold Rsqr. lra.
Qed.

(** ** Regression *)
Lemma regression_ok xs ys : length xs = length ys -> ~ constant xs ->
  linear_regression (lift xs) (lift ys) =
  (Some (cross_dev xs ys / sq_dev xs), Some (average ys - cross_dev xs ys / sq_dev xs * average xs)).
Proof.
  intros Hl Hc. assert (xs <> []) as Hne by (intros ->; destruct Hc; intros ? ? H; by apply elem_of_nil in H).
  assert (ys <> []) as Hne2 by (intros ->; by destruct xs).
  unfold linear_regression. rewrite !mean_ok by done.
  rewrite (map_lift _ (fun x => x - average xs)) by done. rewrite (map_lift _ (fun y => y - average ys)) by done.
  rewrite (zip_lift _ Rmult) by done. rewrite (map_lift _ Rsqr) by done. rewrite !nsum_lift.
  assert (Rsum (zip_with Rmult (map (fun x => x - average xs) xs) (map (fun y => y - average ys) ys)) = cross_dev xs ys) as ->.
  { unfold cross_dev. f_equal. generalize (average xs), (average ys). intros mx my. clear.
    revert ys. induction xs as [|x xs IH]; intros [|y ys]; simpl; [done..|]. by rewrite IH. }
  rewrite map_map. change (Rsum (map (fun x => Rsqr (x - average xs)) xs)) with (sq_dev xs).
  pose proof (sq_dev_pos xs Hc). rewrite ndiv_ok by lra. done.
Qed.

Lemma regression_best xs ys c1 c2 : length xs = length ys -> ~ constant xs ->
  let b1 := cross_dev xs ys / sq_dev xs in
  let b2 := average ys - b1 * average xs in
  residual_ss b1 b2 xs ys <= residual_ss c1 c2 xs ys /\
  (residual_ss c1 c2 xs ys = residual_ss b1 b2 xs ys -> c1 = b1 /\ c2 = b2).
Proof.
  intros Hl Hc b1 b2. assert (xs <> []) as Hne by (intros ->; destruct Hc; intros ? ? H; by apply elem_of_nil in H).
  pose proof (sq_dev_pos xs Hc) as Hp. pose proof (len_pos xs Hne) as Hn.
  assert (cross_dev xs ys = b1 * sq_dev xs) as E by (unfold b1; field; lra).
  assert (residual_ss c1 c2 xs ys - residual_ss b1 b2 xs ys
    = sq_dev xs * Rsqr (c1 - b1) + INR (length xs) * Rsqr (average ys - c1 * average xs - c2)) as D.
  { rewrite !residual_square by done. unfold b2.
    replace (average ys - b1 * average xs - (average ys - b1 * average xs)) with 0 by lra.
    rewrite E. unfold Rsqr. ring. }
  pose proof (Rle_0_sqr (c1 - b1)) as S1. pose proof (Rle_0_sqr (average ys - c1 * average xs - c2)) as S2.
  assert (0 <= sq_dev xs * Rsqr (c1 - b1)) as P1 by (apply Rmult_le_pos; lra).
  assert (0 <= INR (length xs) * Rsqr (average ys - c1 * average xs - c2)) as P2 by (apply Rmult_le_pos; lra).
  split; [lra|]. intros Heq. rewrite Heq in D.
  assert (sq_dev xs * Rsqr (c1 - b1) = 0) as Z1 by lra.
  assert (INR (length xs) * Rsqr (average ys - c1 * average xs - c2) = 0) as Z2 by lra.
  apply Rmult_integral in Z1 as [Z1|Z1]; [lra|]. apply Rmult_integral in Z2 as [Z2|Z2]; [lra|].
  apply Rsqr_0_uniq in Z1, Z2. assert (c1 = b1) as -> by lra. split; [done|]. unfold b2. lra.
Qed.

(** ** Regression against the index *)
Lemma sum_indices n : S_ INR (seq 0 n) = INR n * (INR n - 1) / 2.
Proof.
  induction n as [|n IH]; [unfold S_; simpl; lra|].
  rewrite seq_S, S_app, IH. unfold S_ at 1. cbn [map]. unfold Rsum. cbn [foldr Nat.add]. rewrite S_INR. field.
Qed.
Lemma sum_squares n : S_ (fun i => Rsqr (INR i)) (seq 0 n) = (INR n - 1) * INR n * (2 * INR n - 1) / 6.
Proof.
  induction n as [|n IH]; [unfold S_; simpl; lra|].
  rewrite seq_S, S_app, IH. unfold S_ at 1. cbn [map]. unfold Rsum. cbn [foldr Nat.add]. rewrite S_INR. unfold Rsqr. field.
Qed.
Lemma indices_length n : length (indices n) = n.
Proof. unfold indices. by rewrite map_length, seq_length. Qed.
Lemma indices_ne n : (0 < n)%nat -> indices n <> [].
Proof. intros H E. apply (f_equal length) in E. rewrite indices_length in E. simpl in E. lia. Qed.
Lemma average_indices n : (0 < n)%nat -> average (indices n) = (INR n - 1) / 2.
Proof.
  intros H. unfold average. rewrite indices_length. unfold indices.
  change (Rsum (map INR (seq 0 n))) with (S_ INR (seq 0 n)). rewrite sum_indices. apply lt_0_INR in H. field. lra.
Qed.
Lemma sq_dev_indices n : (0 < n)%nat -> sq_dev (indices n) = INR n * (INR n * INR n - 1) / 12.
Proof.
  intros H. unfold sq_dev. rewrite average_indices by done. unfold indices. rewrite map_map.
  change (S_ (fun i => Rsqr (INR i - (INR n - 1) / 2)) (seq 0 n) = INR n * (INR n * INR n - 1) / 12).
  rewrite (S_ext _ (fun i => Rsqr (INR i) - (INR n - 1) * INR i + Rsqr ((INR n - 1) / 2))).
  2: { intros i _. unfold Rsqr. field. }
  rewrite S_plus, S_minus, S_scal, S_const, sum_squares, sum_indices, seq_length. unfold Rsqr. field.
Qed.
Lemma indices_varied n : (2 <= n)%nat -> ~ constant (indices n).
Proof.
  intros H Hc. assert (INR 0 = INR 1) as E.
  { apply Hc; apply elem_of_list_fmap; eexists; (split; [done|]); apply elem_of_seq; lia. }
  simpl in E. lra.
Qed.
Lemma imap_indices (g : R -> R -> R) xs k :
  imap (fun i x => g (INR (k + i)) x) xs = zip_with g (map INR (seq k (length xs))) xs.
Proof.
  revert k. induction xs as [|x xs IH]; intros k; simpl; [done|]. rewrite Nat.add_0_r. f_equal.
  rewrite <- IH. apply imap_ext. intros i y _. unfold compose. by rewrite Nat.add_succ_r.
Qed.
Lemma imap_indices0 (g : R -> R -> R) xs :
  imap (fun i x => g (INR i) x) xs = zip_with g (indices (length xs)) xs.
Proof. apply (imap_indices g xs 0). Qed.

Lemma int32_small z : (- 2 ^ 31 <= z < 2 ^ 31)%Z -> in_range int32 z = true.
Proof.
  intros H. apply in_range_spec. change (lo int32) with (- 2 ^ 31)%Z. change (hi int32) with (2 ^ 31 - 1)%Z. lia.
Qed.
Lemma op_sub_ok x y : (- 2 ^ 31 <= x - y < 2 ^ 31)%Z -> op_sub int32 x y = Ok (x - y)%Z.
Proof. intros H. apply arith_ok; [done|]. by apply int32_small. Qed.
Lemma op_mul_ok x y : (- 2 ^ 31 <= x * y < 2 ^ 31)%Z -> op_mul int32 x y = Ok (x * y)%Z.
Proof. intros H. apply arith_ok; [done|]. by apply int32_small. Qed.
Lemma op_mul_overflow x y : (2 ^ 31 <= x * y)%Z -> op_mul int32 x y = UB Overflow.
Proof.
  intros H. unfold op_mul, arith. change (promote int32) with int32. destruct (in_range int32 (x * y)) eqn:E; [|done].
  apply in_range_spec in E. change (hi int32) with (2 ^ 31 - 1)%Z in E. lia.
Qed.

Lemma with_index_ok xs : (2 <= length xs <= 1290)%nat ->
  linear_regression_with_index (lift xs) = Ok (linear_regression (lift (indices (length xs))) (lift xs)).
Proof.
  intros [H2 Hn]. assert (xs <> []) as Hne by (intros ->; simpl in H2; lia).
  rewrite regression_ok by (by rewrite ?indices_length; auto using indices_varied).
  unfold linear_regression_with_index. rewrite map_length.
  set (n := Z.of_nat (length xs)). assert (2 <= n <= 1290)%Z as Hz by lia.
  rewrite (conv_id int32 n) by (done || apply int32_small; lia).
  rewrite op_sub_ok by lia. cbn [bind]. rewrite op_mul_ok by nia. cbn [bind].
  rewrite op_sub_ok by nia. cbn [bind]. rewrite op_mul_ok by nia. cbn [bind].
  rewrite mean_ok by done. unfold of_Z. rewrite !ndiv_ok by lra.
  rewrite (imap_lift _ (fun i a => (INR i - average (indices (length xs))) * (a - average xs))).
  2: { intros i x. rewrite of_size_INR. simpl. rewrite average_indices by lia.
       unfold n. rewrite minus_IZR, <- INR_IZR_INZ. done. }
  rewrite (imap_indices0 (fun i a => (i - average (indices (length xs))) * (a - average xs))).
  rewrite nsum_lift. change (Rsum (zip_with _ _ _)) with (cross_dev (indices (length xs)) xs).
  assert (IZR (n * (n * n - 1)) / 12 = sq_dev (indices (length xs))) as E.
  { rewrite sq_dev_indices by lia. unfold n. rewrite mult_IZR, minus_IZR, mult_IZR, <- INR_IZR_INZ. done. }
  rewrite E. assert (0 < sq_dev (indices (length xs))) by (apply sq_dev_pos; by apply indices_varied).
  rewrite ndiv_ok by lra. rewrite average_indices by lia. unfold n. rewrite minus_IZR, <- INR_IZR_INZ. done.
Qed.

Lemma with_index_overflow xs : (1291 <= Z.of_nat (length xs) < 2 ^ 31)%Z ->
  linear_regression_with_index xs = UB Overflow.
Proof.
  intros Hn. unfold linear_regression_with_index. set (n := Z.of_nat (length xs)) in *.
  rewrite (conv_id int32 n) by (done || apply int32_small; lia). rewrite op_sub_ok by lia. cbn [bind].
  destruct (decide (n * n < 2 ^ 31)%Z) as [Hs|Hs].
  - rewrite op_mul_ok by nia. cbn [bind]. rewrite op_sub_ok by nia. cbn [bind]. rewrite op_mul_overflow by nia. done.
  - rewrite op_mul_overflow by lia. done.
Qed.

(** What is left after removing a line. *)
Definition off_line (b1 b2 : R) (xs ys : list R) : list R := zip_with (fun x y => y - (b1 * x + b2)) xs ys.
Lemma off_line_length b1 b2 xs ys : length xs = length ys -> length (off_line b1 b2 xs ys) = length ys.
Proof. intros H. unfold off_line. rewrite zip_with_length. lia. Qed.
Lemma off_line_average b1 b2 xs ys : length xs = length ys -> ys <> [] ->
  average (off_line b1 b2 xs ys) = average ys - b1 * average xs - b2.
Proof.
  intros Hl Hne. unfold average at 1. rewrite off_line_length by done. unfold off_line.
  rewrite (zip_with_map (fun x y => y - (b1 * x + b2))).
  change (S_ (fun p : R * R => p.2 - (b1 * p.1 + b2)) (zip xs ys) / INR (length ys) = average ys - b1 * average xs - b2).
  rewrite S_minus, S_plus, S_scal, S_const, (S_zip_snd (fun y => y)), (S_zip_fst (fun x => x)), !S_id by done.
  rewrite zip_with_length, Hl, Nat.min_id. unfold average. rewrite Hl. pose proof (len_pos ys Hne). field. lra.
Qed.
Lemma off_line_cross b1 b2 xs ys : length xs = length ys -> ys <> [] ->
  cross_dev xs (off_line b1 b2 xs ys) = cross_dev xs ys - b1 * sq_dev xs.
Proof.
  intros Hl Hne. unfold cross_dev. rewrite off_line_average by done. unfold off_line.
  set (mx := average xs). set (my := average ys).
  assert (zip_with (fun x y => (x - mx) * (y - (my - b1 * mx - b2))) xs (zip_with (fun x y => y - (b1 * x + b2)) xs ys)
    = map (fun p : R * R => (p.1 - mx) * (p.2 - my) - b1 * Rsqr (p.1 - mx)) (zip xs ys)) as ->.
  { clearbody mx my. clear. revert ys.
    induction xs as [|x xs IH]; intros [|y ys]; simpl; [done..|]. rewrite IH. f_equal. unfold Rsqr. ring. }
  change (Rsum (map ?f ?l)) with (S_ f l). rewrite S_minus, S_scal, (S_zip_fst (fun x => Rsqr (x - mx))) by done.
  rewrite (zip_with_map (fun x y => (x - mx) * (y - my))). done.
Qed.

Lemma detrend_ok xs : (2 <= length xs <= 1290)%nat ->
  let idx := indices (length xs) in
  let b1 := cross_dev idx xs / sq_dev idx in
  let b2 := average xs - b1 * average idx in
  forall cvt, detrend cvt (lift xs) = Ok (lift (imap (fun i x => x - (b1 * cvt i + b2)) xs)).
Proof.
  intros Hn idx b1 b2 cvt. unfold detrend. rewrite with_index_ok by done.
  rewrite regression_ok by (rewrite ?indices_length; auto; apply indices_varied; lia). cbn [bind].
  f_equal. apply imap_lift. done.
Qed.

Lemma detrend_exact xs : (2 <= length xs <= 1290)%nat ->
  let idx := indices (length xs) in
  let b1 := cross_dev idx xs / sq_dev idx in
  let b2 := average xs - b1 * average idx in
  detrend cvt_exact (lift xs) = Ok (lift (off_line b1 b2 idx xs)).
Proof.
  intros Hn idx b1 b2. rewrite detrend_ok by done. do 2 f_equal. unfold off_line, idx. rewrite <- imap_indices0.
  apply imap_ext. intros i x _. unfold cvt_exact. by rewrite <- INR_IZR_INZ.
Qed.

Lemma detrend_flat xs : (2 <= length xs <= 1290)%nat ->
  exists ys, detrend cvt_exact (lift xs) = Ok (lift ys) /\ length ys = length xs /\
    average ys = 0 /\ cross_dev (indices (length xs)) ys = 0.
Proof.
  intros Hn. eexists. split; [by apply detrend_exact|].
  assert (xs <> []) as Hne by (intros ->; simpl in Hn; lia).
  assert (length (indices (length xs)) = length xs) as Hl by apply indices_length.
  assert (0 < sq_dev (indices (length xs))) by (apply sq_dev_pos, indices_varied; lia).
  split_and!.
  - by apply off_line_length.
  - rewrite off_line_average by done. lra.
  - rewrite off_line_cross by done. field. lra.
Qed.

Lemma detrend_fix ys : (2 <= length ys <= 1290)%nat -> average ys = 0 -> cross_dev (indices (length ys)) ys = 0 ->
  detrend cvt_exact (lift ys) = Ok (lift ys).
Proof.
  intros Hn Ha Hc. rewrite detrend_ok by done. rewrite Ha, Hc. do 2 f_equal.
  rewrite <- (map_id ys) at 2. replace (map (fun x => x) ys) with (imap (fun _ x => x) ys).
  - apply imap_ext. intros i x _. lra.
  - generalize ys. intros l. clear. induction l as [|x l IH]; simpl; [done|]. f_equal. apply IH.
Qed.

Lemma conv_le t z : (0 < bits t)%Z -> (0 <= z)%Z -> (conv t z <= z)%Z.
Proof.
  intros Hb Hz. unfold conv. assert (lo t <= 0)%Z.
  { unfold lo. destruct (signed t); [|lia]. assert (0 <= 2 ^ (bits t - 1))%Z by (apply Z.pow_nonneg; lia). lia. }
  assert (0 < 2 ^ bits t)%Z by (apply Z.pow_pos_nonneg; lia).
  pose proof (Z.mod_le (z - lo t) (2 ^ bits t)). lia.
Qed.

(** Sum of what detrend leaves, with any conversion of the index. *)
Lemma Rsum_imap_gen (g : nat -> R) (a : R) xs k :
  Rsum (imap (fun i x => x - (a * g (k + i)%nat)) xs) = Rsum xs - a * S_ g (seq k (length xs)).
Proof.
  revert k. induction xs as [|x xs IH]; intros k; [unfold S_; simpl; lra|].
  cbn [imap length seq]. unfold S_. cbn [map]. unfold Rsum. cbn [foldr].
  specialize (IH (S k)). unfold S_, Rsum in IH. rewrite Nat.add_0_r.
  replace (imap ((fun i y => y - a * g (k + i)%nat) ∘ S) xs) with (imap (fun i y => y - a * g (S k + i)%nat) xs).
  - rewrite IH. lra.
  - apply imap_ext. intros i y _. unfold compose. by rewrite Nat.add_succ_r.
Qed.

Lemma detrend_sum xs cvt : (2 <= length xs <= 1290)%nat ->
  let idx := indices (length xs) in
  let b1 := cross_dev idx xs / sq_dev idx in
  exists ys, detrend cvt (lift xs) = Ok (lift ys) /\
    Rsum ys = b1 * S_ (fun i => INR i - cvt i) (seq 0 (length xs)).
Proof.
  intros Hn idx b1. eexists. split; [by apply detrend_ok|]. fold idx b1.
  set (b2 := average xs - b1 * average idx). assert (xs <> []) as Hne by (intros ->; simpl in Hn; lia).
  rewrite (imap_ext (fun i x => x - (b1 * cvt i + b2)) (fun i x => x - 1 * (b1 * cvt (0 + i)%nat + b2)))
    by (intros; rewrite Nat.add_0_l; ring).
  rewrite (Rsum_imap_gen (fun i => b1 * cvt i + b2)). rewrite S_plus, S_scal, S_const, seq_length, S_minus.
  rewrite sum_indices. unfold b2, idx. rewrite average_indices by lia. unfold average.
  pose proof (len_pos xs Hne). field. lra.
Qed.

Lemma detrend_int8 zs : (129 <= length zs <= 1290)%nat ->
  let xs := map IZR zs in
  cross_dev (indices (length xs)) xs <> 0 ->
  exists ys, detrend (cvt_int (ITy 8 true)) (lift xs) = Ok (lift ys) /\ average ys <> 0.
Proof.
  intros Hn xs Hs. assert (length xs = length zs) as Hl by apply map_length.
  destruct (detrend_sum xs (cvt_int (ITy 8 true))) as (ys & Hd & Hsum); [lia|]. exists ys. split; [done|].
  assert (Hpos : 0 < S_ (fun i => INR i - cvt_int (ITy 8 true) i) (seq 0 (length xs))).
  { rewrite Hl. replace (length zs) with (129 + (length zs - 129))%nat by lia.
    assert (forall i, 0 <= INR i - cvt_int (ITy 8 true) i) as Hi.
    { intros i. unfold cvt_int. pose proof (conv_le (ITy 8 true) (Z.of_nat i) eq_refl (Zle_0_nat i)) as H.
      apply IZR_le in H. rewrite INR_IZR_INZ. lra. }
    rewrite seq_app, S_app.
    assert (0 <= S_ (fun i => INR i - cvt_int (ITy 8 true) i) (seq (0 + 129) (length zs - 129))).
    { apply S_ge0. intros; apply Hi. }
    change 129%nat with (S 128) at 1. rewrite seq_S, S_app.
    assert (0 <= S_ (fun i => INR i - cvt_int (ITy 8 true) i) (seq 0 128)) by (apply S_ge0; intros; apply Hi).
    assert (S_ (fun i => INR i - cvt_int (ITy 8 true) i) [(0 + 128)%nat] = 256).
    { unfold S_, Rsum. cbn [map foldr]. unfold cvt_int. rewrite INR_IZR_INZ, <- minus_IZR.
      change (Z.of_nat (0 + 128) - conv (ITy 8 true) (Z.of_nat (0 + 128)))%Z with 256%Z. lra. }
    lra. }
  assert (ys <> []) as Hne.
  { intros ->. rewrite detrend_ok in Hd by lia. injection Hd as Hd. apply (f_equal length) in Hd.
    rewrite map_length, imap_length in Hd. simpl in Hd. lia. }
  unfold average. rewrite Hsum. pose proof (len_pos ys Hne).
  assert (0 < sq_dev (indices (length xs))) by (apply sq_dev_pos, indices_varied; lia).
  intros E. apply Rmult_integral in E as [E|E].
  - apply Rmult_integral in E as [E|E]; [|lra]. apply Rmult_integral in E as [E|E]; [done|].
    assert (/ sq_dev (indices (length xs)) <> 0) by (apply Rinv_neq_0_compat; lra). done.
  - assert (/ INR (length ys) <> 0) by (apply Rinv_neq_0_compat; lra). done.
Qed.

Lemma remove_dc_ok xs : xs <> [] ->
  exists ys, remove_dc (lift xs) = lift ys /\ length ys = length xs /\ average ys = 0 /\
    forall i x, xs !! i = Some x -> ys !! i = Some (x - average xs).
Proof.
  intros Hne. exists (map (fun x => x - average xs) xs). split_and!.
  - unfold remove_dc. rewrite mean_ok by done. by apply map_lift.
  - apply map_length.
  - unfold average at 1. change (Rsum (map (fun x => x - average xs) xs)) with (S_ (fun x => x - average xs) xs).
    rewrite dev_zero by done. lra.
  - intros i x Hx. rewrite <- (list_lookup_fmap (fun x => x - average xs) xs i) || idtac.
    change (map (fun x => x - average xs) xs) with ((fun x => x - average xs) <$> xs).
    by rewrite list_lookup_fmap, Hx.
Qed.

(** ** Autocovariance *)

Lemma size_small z : (0 <= z < 2 ^ 64)%Z -> conv size_t z = z.
Proof.
  intros H. apply conv_id; [done|]. apply in_range_spec. change (lo size_t) with 0%Z.
  change (hi size_t) with (2 ^ 64 - 1)%Z. lia.
Qed.
Lemma Rsum_take_S l k x : l !! k = Some x -> Rsum (take (S k) l) = Rsum (take k l) + x.
Proof.
  intros H. rewrite (take_S_r _ _ _ H). rewrite <- !S_id, S_app. unfold S_, Rsum at 2. simpl. lra.
Qed.

Lemma autocovariance_ok b adj xs lag : (lag <= length xs)%nat -> (1 <= Z.of_nat (length xs) < 2 ^ 31)%Z ->
  autocovariance b adj (lift xs) (Z.of_nat lag) =
  Ok (ndiv (Some (lagged lag xs))
       (of_Z (if adj then if b then conv size_t (Z.of_nat (length xs) - Z.of_nat lag - 1) else Z.of_nat (length xs) - Z.of_nat lag
              else if b then Z.of_nat (length xs) - 1 else Z.of_nat (length xs)))).
Proof.
  intros Hlag Hn. assert (xs <> []) as Hne by (intros ->; simpl in Hn; lia).
  unfold autocovariance. rewrite map_length, mean_ok by done. rewrite (size_small (Z.of_nat lag)) by lia.
  rewrite !(size_small (Z.of_nat (length xs) - Z.of_nat lag)) by lia.
  rewrite (conv_id int32) by (done || apply int32_small; lia).
  rewrite (size_small (Z.of_nat (length xs) - Z.of_nat lag)) by lia.
  replace (Z.to_nat (Z.of_nat (length xs) - Z.of_nat lag)) with (length xs - lag)%nat by lia.
  set (m := average xs). set (g := fun x y => (x - m) * (y - m)).
  set (l := zip_with g xs (drop lag xs)).
  assert (length l = (length xs - lag)%nat) as Hll by (unfold l; rewrite zip_with_length, drop_length; lia).
  match goal with |- (let* summation := ?L in _) = _ => assert (L = Ok (Some (Rsum l))) as -> end.
  { match goal with |- ?L = _ => assert (wp L (fun s => s = Some (Rsum l))) as (s & -> & ->); [|done] end.
    apply (wp_for_up (fun k s => s = Some (Rsum (take k l)))).
    - done.
    - intros k s _ Hk ->. simpl in Hk.
      destruct (lookup_lt_is_Some_2 xs k ltac:(lia)) as [x Hx].
      destruct (lookup_lt_is_Some_2 xs (k + lag)%nat ltac:(lia)) as [y Hy].
      apply wp_bind. apply wp_get with (Some x).
      { change (lift xs) with (Some <$> xs). by rewrite list_lookup_fmap, Hx. }
      apply wp_bind. rewrite size_small by lia.
      replace (Z.to_nat (Z.of_nat k + Z.of_nat lag)) with (k + lag)%nat by lia. apply wp_get with (Some y).
      { change (lift xs) with (Some <$> xs). by rewrite list_lookup_fmap, Hy. }
      apply wp_ok. rewrite (Rsum_take_S l k (g x y)).
      + done.
      + unfold l. rewrite lookup_zip_with, Hx. simpl. rewrite lookup_drop, Nat.add_comm, Hy. done.
    - intros s ->. simpl. rewrite <- Hll. by rewrite firstn_all. }
  cbn [bind]. f_equal. change (Rsum l) with (lagged lag xs). destruct adj, b; try done.
  unfold of_size_minus_1. by rewrite size_small by lia.
Qed.

Lemma zip_drop_bound d lag : Rabs (Rsum (zip_with Rmult d (drop lag d))) <= Rsum (map Rsqr d).
Proof.
  set (e := drop lag d). rewrite zip_with_map.
  assert (H1 : S_ (fun p : R * R => Rsqr p.1) (zip d e) <= Rsum (map Rsqr d)).
  { clearbody e. revert e. unfold S_, Rsum. induction d as [|x d IH]; intros [|y e]; simpl; [lra..| |].
    - assert (0 <= Rsqr x) by apply Rle_0_sqr. assert (0 <= foldr Rplus 0 (map Rsqr d)) by (apply S_ge0; intros; apply Rle_0_sqr). lra.
    - specialize (IH e). lra. }
  assert (H2 : S_ (fun p : R * R => Rsqr p.2) (zip d e) <= Rsum (map Rsqr d)).
  { apply Rle_trans with (Rsum (map Rsqr e)).
    - clear H1. clearbody e. revert e. unfold S_, Rsum. induction d as [|x d IH]; intros [|y e]; simpl; [lra..| | |].
      + assert (0 <= Rsqr y) by apply Rle_0_sqr. assert (0 <= foldr Rplus 0 (map Rsqr e)) by (apply S_ge0; intros; apply Rle_0_sqr). lra.
      + lra.
      + specialize (IH e). lra.
    - unfold e. rewrite <- (take_drop lag d) at 2. change (S_ Rsqr (drop lag d) <= S_ Rsqr (take lag d ++ drop lag d)).
      rewrite S_app. assert (0 <= S_ Rsqr (take lag d)) by (apply S_ge0; intros; apply Rle_0_sqr). lra. }
  change (Rabs (S_ (fun p : R * R => p.1 * p.2) (zip d e)) <= Rsum (map Rsqr d)).
  assert (0 <= S_ (fun p : R * R => Rsqr (p.1 - p.2)) (zip d e)) as P by (apply S_ge0; intros; apply Rle_0_sqr).
  assert (0 <= S_ (fun p : R * R => Rsqr (p.1 + p.2)) (zip d e)) as Q by (apply S_ge0; intros; apply Rle_0_sqr).
  rewrite (S_ext _ (fun p => Rsqr p.1 + Rsqr p.2 - 2 * (p.1 * p.2))) in P by (intros; unfold Rsqr; ring).
  rewrite (S_ext _ (fun p => Rsqr p.1 + Rsqr p.2 + 2 * (p.1 * p.2))) in Q by (intros; unfold Rsqr; ring).
  rewrite S_minus, S_plus, S_scal in P. rewrite !S_plus, S_scal in Q.
  unfold Rabs. destruct (Rcase_abs _); lra.
Qed.

Lemma lagged_bound lag xs : Rabs (lagged lag xs) <= sq_dev xs.
Proof.
  unfold lagged. set (m := average xs). replace (zip_with (fun x y => (x - m) * (y - m)) xs (drop lag xs))
    with (zip_with Rmult (map (fun x => x - m) xs) (drop lag (map (fun x => x - m) xs))).
  - eapply Rle_trans; [apply zip_drop_bound|]. rewrite map_map. unfold sq_dev. fold m. lra.
  - change (map (fun x => x - m) xs) with ((fun x => x - m) <$> xs). rewrite <- fmap_drop.
    clearbody m. generalize (drop lag xs). induction xs as [|x xs IH]; intros [|y ys]; simpl; [done..|]. by rewrite IH.
Qed.
Lemma lagged_0 xs : lagged 0 xs = sq_dev xs.
Proof. unfold lagged. rewrite drop_0, zip_with_diag_. done. Qed.

Lemma for_up_first {S} n i body (s : S) k : n <> 0%nat -> body i s = UB k -> for_up n i body s = UB k.
Proof. intros Hn H. destruct n; [done|]. simpl. by rewrite H. Qed.

Lemma autocovariance_bad b adj (xs : list num) lag : (Z.of_nat (length xs) < 2 ^ 31)%Z -> (- 2 ^ 31 <= lag < 2 ^ 31)%Z ->
  (lag < 0 \/ Z.of_nat (length xs) < lag)%Z -> autocovariance b adj xs lag = UB OutOfBounds.
Proof.
  intros Hn Hr Hlag. unfold autocovariance. set (n := Z.of_nat (length xs)) in *.
  assert (0 <= n)%Z by lia.
  assert (forall z, (- 2 ^ 64 <= z < 0)%Z -> conv size_t z = (z + 2 ^ 64)%Z) as Hneg.
  { intros z Hz. unfold conv. change (lo size_t) with 0%Z. change (bits size_t) with 64%Z.
    rewrite <- (Z.mod_add _ 1) by lia. rewrite Z.mod_small by lia. lia. }
  rewrite for_up_first with (k := OutOfBounds); [done| |].
  - (* at least one iteration *)
    intros E. assert (conv size_t (conv int32 (conv size_t (n - conv size_t lag))) = 0)%Z as Z0.
    { pose proof (conv_range size_t (conv int32 (conv size_t (n - conv size_t lag))) eq_refl) as R.
      apply in_range_spec in R. change (lo size_t) with 0%Z in R. lia. }
    assert (conv int32 (conv size_t (n - conv size_t lag)) = 0)%Z as Z1.
    { pose proof (conv_range int32 (conv size_t (n - conv size_t lag)) eq_refl) as R.
      apply in_range_spec in R. change (lo int32) with (- 2 ^ 31)%Z in R. change (hi int32) with (2 ^ 31 - 1)%Z in R.
      destruct (decide (0 <= conv int32 (conv size_t (n - conv size_t lag)))%Z).
      - rewrite size_small in Z0 by lia. done.
      - rewrite Hneg in Z0 by lia. lia. }
    assert (exists q, n - lag = q * 2 ^ 32)%Z as (q & Hq).
    { assert (exists q, conv size_t (n - conv size_t lag) = q * 2 ^ 32)%Z as (q & Hq).
      { unfold conv at 1 in Z1. change (lo int32) with (- 2 ^ 31)%Z in Z1. change (bits int32) with 32%Z in Z1.
        assert ((conv size_t (n - conv size_t lag) - - 2 ^ 31) mod 2 ^ 32 = 2 ^ 31)%Z as M by lia.
        exists ((conv size_t (n - conv size_t lag) - - 2 ^ 31) / 2 ^ 32)%Z.
        pose proof (Z.div_mod (conv size_t (n - conv size_t lag) - - 2 ^ 31) (2 ^ 32)). lia. }
      destruct Hlag as [Hlag|Hlag].
      - rewrite (Hneg lag) in Hq by lia. destruct (decide (n - (lag + 2 ^ 64) < 0)%Z).
        + rewrite Hneg in Hq by lia. exists q. lia.
        + lia.
      - rewrite (size_small lag) in Hq by lia. rewrite Hneg in Hq by lia. exists (q - 2 ^ 32)%Z. lia. }
    lia.
  - unfold get. destruct (xs !! 0%nat) eqn:E0; [|done]. cbn [bind].
    rewrite (lookup_ge_None_2 xs); [done|]. destruct Hlag as [Hlag|Hlag].
    + rewrite Hneg by lia. lia.
    + rewrite size_small by lia. lia.
Qed.

(** ** Floating-point extremes, is_approx *)
Lemma R_order : total_order Rltb.
Proof.
  split; unfold Rltb.
  - intros x. destruct (Rlt_dec x x); [lra|done].
  - intros x y z. destruct (Rlt_dec x y), (Rlt_dec y z), (Rlt_dec x z); (done || lra).
  - intros x y. destruct (Rlt_dec x y), (Rlt_dec y x); (done || lra).
Qed.
Lemma R_at_most x y : at_most Rltb x y <-> x <= y.
Proof. unfold at_most, Rltb. destruct (Rlt_dec y x); split; intros; (done || lra). Qed.
Lemma Rltb_lt x y : Rltb x y = true <-> x < y.
Proof. unfold Rltb. destruct (Rlt_dec x y); split; intros; (done || lra). Qed.

Lemma trunc_small x : -1 < x < 1 -> trunc x = 0.
Proof.
  intros H. unfold trunc. assert (forall y, 0 <= y < 1 -> Int_part y = 0%Z) as HI.
  { intros y Hy. unfold Int_part. rewrite <- (tech_up y 1); [lia|lra|lra]. }
  destruct (Rlt_dec x 0); rewrite HI by lra; lra.
Qed.
Lemma abs_float_Rabs x : abs_float x = Rabs x.
Proof. unfold abs_float, Rabs. destruct (Rlt_dec x 0), (Rcase_abs x); lra. Qed.
