(** Proofs about sums and statistics in IEEE 754 arithmetic. *)
From Coq Require Import Reals Lra.
From Flocq Require Import Core BinarySingleNaN Plus_error Relative.
From Verif Require Import Base.Cpp Model.Numeric Model.Ieee.
Local Open Scope R_scope.

Section ieee.
Context {prec emax : Z} {Hprec : Prec_gt_0 prec} {Hemax : Prec_lt_emax prec emax}.
Notation flt := (binary_float prec emax).
Notation fexp := (SpecFloat.fexp prec emax).
Notation emin := (SpecFloat.emin prec emax).
Notation rnd := (round radix2 fexp ZnearestE).
Notation big := (bpow radix2 emax).
Notation add := (fadd prec emax).
Notation sub := (fsub prec emax).
Notation mul := (fmul prec emax).
Notation div := (fdiv prec emax).
Notation sqr := (fsqrt prec emax).
Notation zero := (fzero prec emax).

Global Instance fexp_valid : Valid_exp fexp := FLT_exp_valid emin prec.

Lemma B2SF_infinity (x : flt) s : B2SF x = SpecFloat.S754_infinity s -> x = B754_infinity s.
Proof. destruct x; cbn; by intros [= ->]. Qed.
Lemma overflow_NE s : binary_overflow prec emax mode_NE s = SpecFloat.S754_infinity s.
Proof. done. Qed.

(** ** The operations on finite numbers *)
Lemma fadd_spec (x y : flt) : is_finite x = true -> is_finite y = true ->
  (is_finite (add x y) = true /\ B2R (add x y) = rnd (B2R x + B2R y) /\
     Rabs (rnd (B2R x + B2R y)) < big /\
     Bsign (add x y) = match Rcompare (B2R x + B2R y) 0 with Eq => Bsign x && Bsign y | Lt => true | Gt => false end) \/
  (add x y = B754_infinity (Bsign x) /\ Bsign x = Bsign y /\ big <= Rabs (rnd (B2R x + B2R y))).
Proof.
  intros Hx Hy. pose proof (Bplus_correct prec emax Hprec Hemax mode_NE x y Hx Hy) as H.
  cbn [round_mode] in H. destruct (Rlt_bool_spec (Rabs (rnd (B2R x + B2R y))) big) as [Hl|Hl].
  - left. destruct H as (H1 & H2 & H3). done.
  - right. destruct H as [H1 H2]. rewrite overflow_NE in H1. apply B2SF_infinity in H1. done.
Qed.

Lemma fsub_spec (x y : flt) : is_finite x = true -> is_finite y = true ->
  (is_finite (sub x y) = true /\ B2R (sub x y) = rnd (B2R x - B2R y) /\
     Rabs (rnd (B2R x - B2R y)) < big /\
     Bsign (sub x y) = match Rcompare (B2R x - B2R y) 0 with Eq => Bsign x && negb (Bsign y) | Lt => true | Gt => false end) \/
  (sub x y = B754_infinity (Bsign x) /\ Bsign x = negb (Bsign y) /\ big <= Rabs (rnd (B2R x - B2R y))).
Proof.
  intros Hx Hy. pose proof (Bminus_correct prec emax Hprec Hemax mode_NE x y Hx Hy) as H.
  cbn [round_mode] in H. destruct (Rlt_bool_spec (Rabs (rnd (B2R x - B2R y))) big) as [Hl|Hl].
  - left. destruct H as (H1 & H2 & H3). done.
  - right. destruct H as [H1 H2]. rewrite overflow_NE in H1. apply B2SF_infinity in H1. done.
Qed.

Lemma fmul_spec (x y : flt) : is_finite x = true -> is_finite y = true ->
  (is_finite (mul x y) = true /\ B2R (mul x y) = rnd (B2R x * B2R y) /\
     Rabs (rnd (B2R x * B2R y)) < big /\ Bsign (mul x y) = xorb (Bsign x) (Bsign y)) \/
  (mul x y = B754_infinity (xorb (Bsign x) (Bsign y)) /\ big <= Rabs (rnd (B2R x * B2R y))).
Proof.
  intros Hx Hy. pose proof (Bmult_correct prec emax Hprec Hemax mode_NE x y) as H.
  cbn [round_mode] in H. destruct (Rlt_bool_spec (Rabs (rnd (B2R x * B2R y))) big) as [Hl|Hl].
  - left. destruct H as (H1 & H2 & H3). rewrite Hx, Hy in H2. split_and!; try done.
    apply H3. by destruct (Bmult mode_NE x y).
  - right. rewrite overflow_NE in H. apply B2SF_infinity in H. done.
Qed.

Lemma fdiv_spec (x y : flt) : is_finite x = true -> B2R y <> 0 ->
  (is_finite (div x y) = true /\ B2R (div x y) = rnd (B2R x / B2R y) /\
     Rabs (rnd (B2R x / B2R y)) < big /\ Bsign (div x y) = xorb (Bsign x) (Bsign y)) \/
  (div x y = B754_infinity (xorb (Bsign x) (Bsign y)) /\ big <= Rabs (rnd (B2R x / B2R y))).
Proof.
  intros Hx Hy. pose proof (Bdiv_correct prec emax Hprec Hemax mode_NE x y Hy) as H.
  cbn [round_mode] in H. destruct (Rlt_bool_spec (Rabs (rnd (B2R x / B2R y))) big) as [Hl|Hl].
  - left. destruct H as (H1 & H2 & H3). rewrite Hx in H2. split_and!; try done.
    apply H3. by destruct (Bdiv mode_NE x y).
  - right. rewrite overflow_NE in H. apply B2SF_infinity in H. done.
Qed.

(** ** Non-negative results *)
Definition pos (x : flt) : Prop := is_nan x = false /\ Bsign x = false.

Lemma pos_le x : pos x -> flt_le prec emax zero x = true.
Proof. intros [H1 H2]. destruct x as [s|s| |s m e He]; cbn in *; subst; done. Qed.

Lemma pos_zero : pos zero.
Proof. done. Qed.

Lemma pos_square x : is_nan x = false -> pos (fsquare prec emax x).
Proof.
  intros Hx. unfold fsquare, pos. destruct (is_finite x) eqn:Hf.
  - destruct (fmul_spec x x Hf Hf) as [(H1 & _ & _ & H4)|[-> _]].
    + split; [by destruct (mul x x)|]. rewrite H4. by destruct (Bsign x).
    + split; [done|]. by destruct (Bsign x).
  - by destruct x as [| [] | |].
Qed.

Lemma fin_nonneg (x : flt) : is_finite x = true -> Bsign x = false -> 0 <= B2R x.
Proof.
  destruct x as [s|s| |s m e He]; cbn; intros; try done; try lra. subst s. cbn.
  apply Float_prop.F2R_ge_0. cbn. lia.
Qed.
Lemma fin_nonpos (x : flt) : is_finite x = true -> Bsign x = true -> B2R x <= 0.
Proof.
  destruct x as [s|s| |s m e He]; cbn; intros; try done; try lra. subst s. cbn.
  apply Float_prop.F2R_le_0. cbn. lia.
Qed.

Lemma pos_add x y : pos x -> pos y -> pos (add x y).
Proof.
  intros [H1 H2] [H3 H4]. destruct (is_finite x) eqn:Hx, (is_finite y) eqn:Hy.
  - destruct (fadd_spec x y Hx Hy) as [(G1 & _ & _ & G4)|[-> _]]; [|by rewrite H2].
    split; [by destruct (add x y)|]. rewrite G4, H2.
    pose proof (fin_nonneg x Hx H2). pose proof (fin_nonneg y Hy H4).
    destruct (Rcompare_spec (B2R x + B2R y) 0); [lra|done|done].
  - destruct x as [| | |], y as [| | |]; cbn in *; subst; done.
  - destruct x as [| | |], y as [| | |]; cbn in *; subst; done.
  - destruct x as [| | |], y as [| | |]; cbn in *; subst; done.
Qed.

Lemma pos_fold a xs : pos a -> Forall pos xs -> pos (fold_left add xs a).
Proof.
  intros Ha Hxs. revert a Ha. induction Hxs as [|x xs Hx Hxs IH]; intros a Ha; cbn; [done|].
  apply IH. by apply pos_add.
Qed.
Lemma pos_sum xs : Forall pos xs -> pos (fsum prec emax xs).
Proof. by apply pos_fold. Qed.

Lemma pos_div x y : pos x -> is_finite y = true -> Bsign y = false -> B2R y <> 0 -> pos (div x y).
Proof.
  intros [H1 H2] Hy Hs Hn. destruct (is_finite x) eqn:Hx.
  - destruct (fdiv_spec x y Hx Hn) as [(G1 & _ & _ & G4)|[-> _]].
    + split; [by destruct (div x y)|]. by rewrite G4, H2, Hs.
    + by rewrite H2, Hs.
  - destruct x as [|sx| |]; try done. cbn in *. subst sx. destruct y as [| | |sy my ey Hyy]; cbn in *; try done. by rewrite Hs.
Qed.

Lemma pos_sqrt x : pos x -> pos (sqr x).
Proof.
  intros [H1 H2]. destruct (Bsqrt_correct prec emax Hprec Hemax mode_NE x) as (G1 & G2 & G3).
  assert (is_nan (sqr x) = false) as Hn.
  { unfold fsqrt. destruct x as [s|s| |s m e He]; cbn in H1, H2; subst; try done. by destruct (Bsqrt mode_NE _). }
  split; [done|]. unfold fsqrt in *. rewrite G3 by done. done.
Qed.

(** ** Sums of finite numbers *)
Notation finite x := (is_finite x = true).
Lemma fin_not_nan (x : flt) : finite x -> is_nan x = false.
Proof. by destruct x. Qed.

Lemma add_not_nan a x : is_nan a = false -> finite x -> is_nan (add a x) = false.
Proof.
  intros Ha Hx. destruct (is_finite a) eqn:Hfa.
  - destruct (fadd_spec a x Hfa Hx) as [(G1 & _)|[-> _]]; [by apply fin_not_nan|done].
  - destruct a as [|s| |]; try done. by destruct x.
Qed.
Lemma fold_not_nan a xs : is_nan a = false -> Forall (fun x => finite x) xs -> is_nan (fold_left add xs a) = false.
Proof.
  intros Ha Hxs. revert a Ha. induction Hxs as [|x xs Hx Hxs IH]; intros a Ha; cbn; [done|].
  apply IH. by apply add_not_nan.
Qed.

Lemma sub_not_nan x m : finite x -> is_nan m = false -> is_nan (sub x m) = false.
Proof.
  intros Hx Hm. destruct (is_finite m) eqn:Hfm.
  - destruct (fsub_spec x m Hx Hfm) as [(G1 & _)|[-> _]]; [by apply fin_not_nan|done].
  - destruct m as [|s| |]; try done. by destruct x.
Qed.

Lemma div_not_nan x y : is_nan x = false -> finite y -> B2R y <> 0 -> is_nan (div x y) = false.
Proof.
  intros Hx Hy Hn. destruct (is_finite x) eqn:Hf.
  - destruct (fdiv_spec x y Hf Hn) as [(G1 & _)|[-> _]]; [by apply fin_not_nan|done].
  - destruct x as [|sx| |]; try done. by destruct y as [| | |].
Qed.

(** NaNs and infinities are never left. *)
Lemma add_finite_inv a x : finite (add a x) -> finite a /\ finite x.
Proof. destruct a as [|[]| |], x as [|[]| |]; cbn; try done. Qed.
Lemma fold_finite_inv a xs : finite (fold_left add xs a) -> finite a /\ Forall (fun x => finite x) xs.
Proof.
  revert a. induction xs as [|x xs IH]; intros a; cbn; intros H; [done|].
  destruct (IH _ H) as [H1 H2]. apply add_finite_inv in H1 as [H1 H3]. auto.
Qed.
Lemma fold_nan xs a : is_nan a = true -> is_nan (fold_left add xs a) = true.
Proof. revert a. induction xs as [|x xs IH]; intros a Ha; cbn; [done|]. apply IH. by destruct a. Qed.
Lemma sum_nan a xs : (exists x, x ∈ xs /\ is_nan x = true) -> is_nan (fold_left add xs a) = true.
Proof.
  revert a. induction xs as [|y xs IH]; intros a (x & Hin & Hx); [set_solver|]. cbn.
  apply elem_of_cons in Hin as [<-|Hin]; [|apply IH; eauto].
  apply fold_nan. destruct a, x; done.
Qed.

(** ** Error of a sum *)
Definition u : R := bpow radix2 (- prec).
Lemma u_ro_u : u_ro radix2 prec = u.
Proof. unfold u_ro, u. rewrite bpow_plus. change (bpow radix2 1) with 2. lra. Qed.
Lemma u_pos : 0 < u.
Proof. apply bpow_gt_0. Qed.
Lemma u_lt_1 : u < 1.
Proof. unfold u. change 1 with (bpow radix2 0). apply bpow_lt. unfold Prec_gt_0 in Hprec. lia. Qed.
Lemma u_half : u <= / 2.
Proof. unfold u. change (/ 2) with (bpow radix2 (-1)). apply bpow_le. unfold Prec_gt_0 in Hprec. lia. Qed.

Lemma rnd_plus_error (x y : flt) : exists e, Rabs e <= u /\ rnd (B2R x + B2R y) = (B2R x + B2R y) * (1 + e).
Proof.
  destruct (FLT_plus_error_N_ex radix2 emin prec (fun z => negb (Z.even z)) (B2R x) (B2R y)) as (e & He & Hr).
  { apply generic_format_B2R. }
  { apply generic_format_B2R. }
  exists e. split; [|exact Hr]. eapply Rle_trans; [exact He|].
  rewrite <- u_ro_u. apply u_rod1pu_ro_le_u_ro.
Qed.

Notation rsum xs := (fold_right Rplus 0 (map (@B2R prec emax) xs)).
Notation rsum_abs xs := (fold_right Rplus 0 (map (fun x : flt => Rabs (B2R x)) xs)).

Lemma rsum_abs_nonneg xs : 0 <= rsum_abs xs.
Proof. induction xs as [|x xs IH]; cbn; [lra|]. pose proof (Rabs_pos (B2R x)). lra. Qed.
Lemma rsum_le_abs xs : Rabs (rsum xs) <= rsum_abs xs.
Proof.
  induction xs as [|x xs IH]; cbn; [rewrite Rabs_R0; lra|].
  eapply Rle_trans; [apply Rabs_triang|]. lra.
Qed.

Lemma pow_u_ge_1 n : 1 <= (1 + u) ^ n.
Proof. pose proof u_pos. apply pow_R1_Rle. lra. Qed.

Lemma fold_error a xs : finite (fold_left add xs a) ->
  Rabs (B2R (fold_left add xs a) - (B2R a + rsum xs)) <= ((1 + u) ^ length xs - 1) * (Rabs (B2R a) + rsum_abs xs).
Proof.
  revert a. induction xs as [|x xs IH]; intros a Hf; cbn in Hf |- *.
  - rewrite Rplus_0_r, Rminus_eq_0, Rabs_R0. lra.
  - specialize (IH _ Hf). destruct (fold_finite_inv _ _ Hf) as [Hax _].
    destruct (add_finite_inv _ _ Hax) as [Ha Hx].
    destruct (fadd_spec a x Ha Hx) as [(_ & Hv & _ & _)|[E _]]; [|by rewrite E in Hax].
    destruct (rnd_plus_error a x) as (e & He & Hr). rewrite Hr in Hv. rewrite Hv in IH.
    set (r := B2R (fold_left add xs (add a x))) in *. set (s := B2R a + B2R x) in *.
    set (p := (1 + u) ^ length xs) in *. pose proof (pow_u_ge_1 (length xs)) as Hp. fold p in Hp.
    pose proof (rsum_abs_nonneg xs) as Hq. pose proof u_pos as Hu.
    assert (Rabs (s * e) <= u * Rabs s) as Hse.
    { rewrite Rabs_mult, Rmult_comm. apply Rmult_le_compat_r; [apply Rabs_pos|done]. }
    assert (Rabs s <= Rabs (B2R a) + Rabs (B2R x)) as Hs by apply Rabs_triang.
    assert (Rabs (s * (1 + e)) <= (1 + u) * Rabs s) as Hs1.
    { replace (s * (1 + e)) with (s + s * e) by lra. eapply Rle_trans; [apply Rabs_triang|]. lra. }
    replace (r - (B2R a + (B2R x + rsum xs))) with ((r - (s * (1 + e) + rsum xs)) + s * e) by (unfold s; lra).
    eapply Rle_trans; [apply Rabs_triang|].
    set (A := Rabs (B2R a) + Rabs (B2R x)) in *.
    replace (Rabs (B2R a) + (Rabs (B2R x) + rsum_abs xs)) with (A + rsum_abs xs) by (unfold A; lra).
    assert ((p - 1) * (Rabs (s * (1 + e)) + rsum_abs xs) <= (p - 1) * ((1 + u) * A + rsum_abs xs)) as H1.
    { apply Rmult_le_compat_l; [lra|]. assert ((1 + u) * Rabs s <= (1 + u) * A) by (apply Rmult_le_compat_l; lra). lra. }
    assert (u * Rabs s <= u * A) as H2 by (apply Rmult_le_compat_l; lra).
    assert (0 <= p * u * rsum_abs xs) as H3 by (apply Rmult_le_pos; [apply Rmult_le_pos; lra|done]).
    replace ((1 + u) * p - 1) with ((p - 1) * (1 + u) + u) by lra.
    assert ((p - 1) * ((1 + u) * A + rsum_abs xs) + u * A <= ((p - 1) * (1 + u) + u) * (A + rsum_abs xs)); [|lra].
    replace (((p - 1) * (1 + u) + u) * (A + rsum_abs xs))
      with ((p - 1) * ((1 + u) * A + rsum_abs xs) + u * A + p * u * rsum_abs xs) by ring.
    lra.
Qed.

(** The first element is taken exactly. *)
Lemma add_zero x : finite x -> finite (add zero x) /\ B2R (add zero x) = B2R x.
Proof. destruct x as [[]|s| |s m e He]; cbn; try done. Qed.

Lemma sum_error xs : finite (fsum prec emax xs) ->
  Rabs (B2R (fsum prec emax xs) - rsum xs) <= ((1 + u) ^ (length xs - 1) - 1) * rsum_abs xs.
Proof.
  destruct xs as [|x xs]; intros Hf; [cbn; rewrite Rminus_0_r, Rabs_R0; lra|].
  unfold fsum in *. cbn [fold_left] in *. pose proof (fold_error _ _ Hf) as H.
  destruct (fold_finite_inv _ _ Hf) as [Hf1 _]. apply add_finite_inv in Hf1 as [_ Hx].
  destruct (add_zero x Hx) as [_ E]. rewrite E in H. cbn. by rewrite Nat.sub_0_r.
Qed.
End ieee.
