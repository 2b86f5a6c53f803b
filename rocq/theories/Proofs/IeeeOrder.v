(** Proofs about overflow, order and exactness in IEEE 754 arithmetic. *)
From Coq Require Import Reals Lra.
From Flocq Require Import Core BinarySingleNaN Plus_error Relative.
From Verif Require Import Base.Cpp Model.Numeric Model.Ieee Proofs.IeeeProofs.
Local Open Scope R_scope.

Section ieee.
Context {prec emax : Z} {Hprec : Prec_gt_0 prec} {Hemax : Prec_lt_emax prec emax}.
Notation flt := (binary_float prec emax).
Notation fexp := (SpecFloat.fexp prec emax).
Notation emin := (SpecFloat.emin prec emax).
Notation rnd := (round radix2 fexp ZnearestE).
Notation big := (bpow radix2 emax).
Notation add := (fadd prec emax).
Notation sub := (fsub prec emax).
Notation mul := (fmul prec emax).
Notation div := (fdiv prec emax).
Notation sqr := (fsqrt prec emax).
Notation zero := (fzero prec emax).
Notation huge := (fhuge prec emax).
Notation finite x := (is_finite x = true).
Notation le := (flt_le prec emax).
Notation lt := (flt_lt prec emax).
Notation u := (@u prec).
Notation rsum xs := (fold_right Rplus 0 (map (@B2R prec emax) xs)).
Notation rsum_abs xs := (fold_right Rplus 0 (map (fun x : flt => Rabs (B2R x)) xs)).

Lemma prec_pos : (0 < prec)%Z.
Proof. exact Hprec. Qed.
Lemma prec_emax : (prec < emax)%Z.
Proof. exact Hemax. Qed.

(** ** Overflow *)
Lemma format (x : flt) : generic_format radix2 fexp (B2R x).
Proof. apply generic_format_B2R. Qed.

Lemma fhuge_finite : finite huge.
Proof. done. Qed.

Lemma rnd_in_range r : Rabs r <= B2R huge -> Rabs (rnd r) <= B2R huge.
Proof. intros H. apply abs_round_le_generic; [apply fexp_valid|apply valid_rnd_N|apply format|done]. Qed.

Lemma fhuge_lt : B2R huge < big.
Proof. eapply Rle_lt_trans; [apply Rle_abs|apply abs_B2R_lt_emax]. Qed.

Lemma add_in_range x y : finite x -> finite y -> Rabs (B2R x + B2R y) <= B2R huge ->
  finite (add x y) /\ B2R (add x y) = rnd (B2R x + B2R y).
Proof.
  intros Hx Hy Hr. destruct (fadd_spec x y Hx Hy) as [(H1 & H2 & _)|(_ & _ & H)]; [done|].
  pose proof (rnd_in_range _ Hr). pose proof fhuge_lt. lra.
Qed.

Lemma fold_in_range a xs : finite a -> Forall (fun x => finite x) xs ->
  (1 + u) ^ length xs * (Rabs (B2R a) + rsum_abs xs) <= B2R huge -> finite (fold_left add xs a).
Proof.
  intros Ha Hxs. revert a Ha. induction Hxs as [|x xs Hx Hxs IH]; intros a Ha Hb;
    cbn [fold_left fold_right map length Rpow_def.pow] in *; [done|].
  set (p := (1 + u) ^ length xs) in *. pose proof (pow_u_ge_1 (prec := prec) (length xs)) as Hp. fold p in Hp.
  pose proof (rsum_abs_nonneg xs) as Hq. pose proof (u_pos (prec := prec)) as Hu.
  pose proof (Rabs_triang (B2R a) (B2R x)) as Ht. pose proof (Rabs_pos (B2R a)). pose proof (Rabs_pos (B2R x)).
  set (A := Rabs (B2R a) + Rabs (B2R x)) in *.
  replace (Rabs (B2R a) + (Rabs (B2R x) + rsum_abs xs)) with (A + rsum_abs xs) in Hb by (unfold A; lra).
  assert (0 <= A) as HA by (unfold A; lra).
  assert (A + rsum_abs xs <= (1 + u) * (A + rsum_abs xs)) as Hup.
  { rewrite <- (Rmult_1_l (A + rsum_abs xs)) at 1. apply Rmult_le_compat_r; lra. }
  assert ((1 + u) * (A + rsum_abs xs) <= (1 + u) * p * (A + rsum_abs xs)) as Hup2.
  { apply Rmult_le_compat_r; [lra|]. rewrite <- (Rmult_1_r (1 + u)) at 1. apply Rmult_le_compat_l; lra. }
  destruct (add_in_range a x Ha Hx) as [Hf Hv]; [lra|].
  apply IH; [done|]. destruct (rnd_plus_error a x) as (e & He & Hr). rewrite Hv, Hr.
  assert (Rabs ((B2R a + B2R x) * (1 + e)) <= (1 + u) * A) as H1.
  { rewrite Rabs_mult, Rmult_comm. apply Rmult_le_compat; [apply Rabs_pos|apply Rabs_pos| |done].
    eapply Rle_trans; [apply Rabs_triang|]. rewrite Rabs_R1. lra. }
  assert (p * (Rabs ((B2R a + B2R x) * (1 + e)) + rsum_abs xs) <= p * ((1 + u) * (A + rsum_abs xs))) as H2.
  { apply Rmult_le_compat_l; [lra|]. rewrite (Rmult_plus_distr_l (1 + u)).
    assert (rsum_abs xs <= (1 + u) * rsum_abs xs); [|lra].
    rewrite <- (Rmult_1_l (rsum_abs xs)) at 1. apply Rmult_le_compat_r; lra. }
  replace ((1 + u) * p * (A + rsum_abs xs)) with (p * ((1 + u) * (A + rsum_abs xs))) in Hb by ring. lra.
Qed.

Lemma sum_in_range xs : Forall (fun x => finite x) xs ->
  (1 + u) ^ (length xs - 1) * rsum_abs xs <= B2R huge -> finite (fsum prec emax xs).
Proof.
  intros Hxs Hb. destruct Hxs as [|x xs Hx Hxs]; [done|].
  unfold fsum. cbn [fold_left]. destruct (add_zero x Hx) as [H1 H2]. apply fold_in_range; [done|done|].
  rewrite H2. cbn [length fold_right map] in Hb. replace (S (length xs) - 1)%nat with (length xs) in Hb by lia. done.
Qed.

(** ** Integers *)
Lemma IZR_format z : (Z.abs z <= 2 ^ prec)%Z -> (prec + 3 <= emax + prec)%Z -> generic_format radix2 fexp (IZR z).
Proof.
  intros Hz He. pose proof prec_pos as Hpp. pose proof prec_emax as Hpe.
  destruct (decide (Z.abs z = 2 ^ prec)%Z) as [E|Hn].
  - assert (generic_format radix2 fexp (bpow radix2 prec)) as H.
    { apply (generic_format_FLT_bpow radix2 emin prec). unfold SpecFloat.emin. lia. }
    assert (IZR (2 ^ prec) = bpow radix2 prec) as Eb by (apply (IZR_Zpower radix2); lia).
    destruct (Z.abs_spec z) as [[_ Ea]|[_ Ea]]; rewrite Ea in E.
    + by rewrite E, Eb.
    + replace z with (- (2 ^ prec))%Z by lia. rewrite opp_IZR, Eb. by apply generic_format_opp.
  - apply (generic_format_FLT radix2 emin prec).
    apply (FLT_spec radix2 emin prec (IZR z) (Float radix2 z 0)).
    + unfold F2R. cbn. lra.
    + cbn. lia.
    + cbn. unfold SpecFloat.emin. lia.
Qed.

Lemma emax_ge_2 : (2 <= emax)%Z.
Proof. pose proof prec_pos as Hpp. pose proof prec_emax as Hpe. lia. Qed.

(** Integers up to 2^prec are numbers, if there is room for the exponent 0. *)
Lemma IZR_format' z : (3 <= emax)%Z -> (Z.abs z <= 2 ^ prec)%Z -> generic_format radix2 fexp (IZR z).
Proof. intros He Hz. apply IZR_format; lia. Qed.

Lemma pow_prec_lt_big : IZR (2 ^ prec) < big.
Proof.
  pose proof prec_pos as Hpp. pose proof prec_emax as Hpe. rewrite (IZR_Zpower radix2) by lia. by apply bpow_lt.
Qed.

Definition whole (x : flt) : Prop := finite x /\ exists z, B2R x = IZR z.

Lemma fold_whole a xs : (3 <= emax)%Z -> whole a -> Forall whole xs -> Rabs (B2R a) + rsum_abs xs <= IZR (2 ^ prec) ->
  whole (fold_left add xs a) /\ B2R (fold_left add xs a) = B2R a + rsum xs.
Proof.
  intros He Ha Hxs. revert a Ha. induction Hxs as [|x xs Hx Hxs IH]; intros a Ha Hb; cbn in *; [split; [done|lra]|].
  destruct Ha as [Ha (za & Eza)], Hx as [Hx (zx & Ezx)]. pose proof (rsum_abs_nonneg xs) as Hq.
  pose proof (Rabs_triang (B2R a) (B2R x)) as Ht.
  assert (B2R a + B2R x = IZR (za + zx)) as Ez by (by rewrite plus_IZR, Eza, Ezx).
  assert (rnd (B2R a + B2R x) = B2R a + B2R x) as Er.
  { rewrite Ez. apply round_generic; [apply valid_rnd_N|]. apply IZR_format'; [done|].
    apply le_IZR. rewrite abs_IZR, <- Ez. lra. }
  assert (finite (add a x) /\ B2R (add a x) = B2R a + B2R x) as [Hf Hv].
  { destruct (fadd_spec a x Ha Hx) as [(H1 & H2 & _)|(_ & _ & H)]; [by rewrite H2, Er|].
    rewrite Er in H. pose proof pow_prec_lt_big. lra. }
  destruct (IH (add a x)) as [H1 H2].
  - split; [done|]. exists (za + zx)%Z. by rewrite Hv.
  - rewrite Hv. lra.
  - split; [done|]. rewrite H2, Hv. lra.
Qed.

Lemma sum_whole xs : (3 <= emax)%Z -> Forall whole xs -> rsum_abs xs <= IZR (2 ^ prec) ->
  whole (fsum prec emax xs) /\ B2R (fsum prec emax xs) = rsum xs.
Proof.
  intros He Hxs Hb. destruct (fold_whole zero xs He) as [H1 H2]; [|done| |].
  - split; [done|]. by exists 0%Z.
  - cbn. rewrite Rabs_R0. lra.
  - split; [done|]. unfold fsum. rewrite H2. cbn. lra.
Qed.

(** Conversion of integers. *)
Lemma fof_Z_spec z : (64 < emax)%Z -> (0 <= z < 2 ^ 64)%Z ->
  finite (fof_Z prec emax z) /\ B2R (fof_Z prec emax z) = rnd (IZR z) /\ Bsign (fof_Z prec emax z) = false.
Proof.
  intros He Hz. pose proof (binary_normalize_correct prec emax Hprec Hemax mode_NE z 0 false) as H.
  assert (F2R (Float radix2 z 0) = IZR z) as E by (unfold F2R; cbn; lra). cbv zeta in H. rewrite E in H.
  cbn [round_mode] in H.
  assert (0 <= IZR z) as H0 by (apply IZR_le; lia).
  assert (IZR z <= bpow radix2 64) as H64.
  { rewrite <- (IZR_Zpower radix2 64) by lia. apply IZR_le. cbn. lia. }
  assert (Rabs (rnd (IZR z)) <= bpow radix2 64) as Hr.
  { apply abs_round_le_generic; [apply fexp_valid|apply valid_rnd_N| |by rewrite Rabs_pos_eq].
    apply (generic_format_FLT_bpow radix2 emin prec).
    pose proof prec_pos as Hpp. unfold SpecFloat.emin. lia. }
  assert (bpow radix2 64 < big) as Hbig by (by apply bpow_lt).
  rewrite Rlt_bool_true in H by lra. destruct H as (H1 & H2 & H3). split_and!; [done|done|].
  unfold fof_Z. rewrite H3. destruct (Rcompare_spec (IZR z) 0); [lra|done|done].
Qed.

Lemma rnd_ge_1 z : (64 < emax)%Z -> (1 <= z)%Z -> 1 <= rnd (IZR z).
Proof.
  intros He Hz. apply round_ge_generic; [apply fexp_valid|apply valid_rnd_N| |by apply IZR_le].
  change 1 with (bpow radix2 0). apply (generic_format_FLT_bpow radix2 emin prec).
  pose proof prec_pos as Hpp. unfold SpecFloat.emin. lia.
Qed.

Lemma fof_Z_pos z : (64 < emax)%Z -> (1 <= z < 2 ^ 64)%Z ->
  finite (fof_Z prec emax z) /\ Bsign (fof_Z prec emax z) = false /\ 1 <= B2R (fof_Z prec emax z).
Proof.
  intros He Hz. destruct (fof_Z_spec z He) as (H1 & H2 & H3); [lia|]. split_and!; [done|done|].
  rewrite H2. apply rnd_ge_1; [done|lia].
Qed.

(** ** Order *)
Lemma le_finite x y : finite x -> finite y -> le x y = true <-> B2R x <= B2R y.
Proof.
  intros Hx Hy. unfold flt_le. rewrite Bleb_correct by done. split.
  - intros H. by destruct (Rle_bool_spec (B2R x) (B2R y)).
  - apply Rle_bool_true.
Qed.
Lemma lt_finite x y : finite x -> finite y -> lt x y = true <-> B2R x < B2R y.
Proof.
  intros Hx Hy. unfold flt_lt. rewrite Bltb_correct by done. split.
  - intros H. by destruct (Rlt_bool_spec (B2R x) (B2R y)).
  - apply Rlt_bool_true.
Qed.
Lemma le_pinf x : is_nan x = false -> le x (B754_infinity false) = true.
Proof. by destruct x as [|[]| |[]]. Qed.
Lemma le_minf x : is_nan x = false -> le (B754_infinity true) x = true.
Proof. by destruct x as [|[]| |[]]. Qed.
Lemma le_not_nan x y : le x y = true -> is_nan x = false /\ is_nan y = false.
Proof. destruct x as [|[]| |[]], y as [|[]| |[]]; done. Qed.
Lemma le_pinf_inv x : le (B754_infinity false) x = true -> x = B754_infinity false.
Proof. by destruct x as [|[]| |[]]. Qed.
Lemma le_minf_inv x : le x (B754_infinity true) = true -> x = B754_infinity true.
Proof. by destruct x as [|[]| |[]]. Qed.

(** The shape common to the operations: exact value, or an infinity of its sign. *)
Definition rounds_to (r : flt) (v : R) : Prop :=
  (finite r /\ B2R r = rnd v /\ Rabs (rnd v) < big) \/
  (r = B754_infinity false /\ big <= rnd v) \/ (r = B754_infinity true /\ rnd v <= - big).

Lemma rounds_le r r' v v' : rounds_to r v -> rounds_to r' v' -> v <= v' -> le r r' = true.
Proof.
  intros H H' Hv. assert (rnd v <= rnd v') as Hr by (apply round_le; [apply fexp_valid|apply valid_rnd_N|done]).
  assert (0 < big) by apply bpow_gt_0.
  destruct H as [(H1 & H2 & H3)|[(-> & H2)|(-> & H2)]], H' as [(G1 & G2 & G3)|[(-> & G2)|(-> & G2)]].
  - apply le_finite; [done|done|lra].
  - apply le_pinf. by apply fin_not_nan.
  - apply Rabs_def2 in H3. lra.
  - apply Rabs_def2 in G3. lra.
  - done.
  - lra.
  - apply le_minf. by apply fin_not_nan.
  - done.
  - done.
Qed.
Lemma rounds_not_nan r v : rounds_to r v -> is_nan r = false.
Proof. intros [(H & _)|[(-> & _)|(-> & _)]]; [by apply fin_not_nan|done|done]. Qed.

Lemma rnd_0 : rnd 0 = 0.
Proof. apply round_0. apply valid_rnd_N. Qed.
Lemma rnd_nonneg v : 0 <= v -> 0 <= rnd v.
Proof. intros H. rewrite <- rnd_0. apply round_le; [apply fexp_valid|apply valid_rnd_N|done]. Qed.
Lemma rnd_nonpos v : v <= 0 -> rnd v <= 0.
Proof. intros H. rewrite <- rnd_0. apply round_le; [apply fexp_valid|apply valid_rnd_N|done]. Qed.

Lemma rounds_inf (s : bool) v : (if s then v <= 0 else 0 <= v) -> big <= Rabs (rnd v) -> rounds_to (B754_infinity s) v.
Proof.
  intros Hs Hb. destruct s.
  - right; right. split; [done|]. apply rnd_nonpos in Hs. rewrite Rabs_left1 in Hb by done. lra.
  - right; left. split; [done|]. apply rnd_nonneg in Hs. rewrite Rabs_pos_eq in Hb by done. lra.
Qed.

Lemma fin_sign (x : flt) : finite x -> if Bsign x then B2R x <= 0 else 0 <= B2R x.
Proof. intros Hx. destruct (Bsign x) eqn:E; [by apply fin_nonpos|by apply fin_nonneg]. Qed.

Lemma add_rounds x y : finite x -> finite y -> rounds_to (add x y) (B2R x + B2R y).
Proof.
  intros Hx Hy. destruct (fadd_spec x y Hx Hy) as [(H1 & H2 & H3 & _)|(-> & E & H)]; [by left|].
  apply rounds_inf; [|done]. pose proof (fin_sign x Hx). pose proof (fin_sign y Hy). rewrite <- E in *.
  destruct (Bsign x); lra.
Qed.
Lemma sub_rounds x y : finite x -> finite y -> rounds_to (sub x y) (B2R x - B2R y).
Proof.
  intros Hx Hy. destruct (fsub_spec x y Hx Hy) as [(H1 & H2 & H3 & _)|(-> & E & H)]; [by left|].
  apply rounds_inf; [|done]. pose proof (fin_sign x Hx). pose proof (fin_sign y Hy). rewrite E in *.
  destruct (Bsign y); cbn in *; lra.
Qed.
Lemma mul_rounds x y : finite x -> finite y -> rounds_to (mul x y) (B2R x * B2R y).
Proof.
  intros Hx Hy. destruct (fmul_spec x y Hx Hy) as [(H1 & H2 & H3 & _)|(-> & H)]; [by left|].
  apply rounds_inf; [|done]. pose proof (fin_sign x Hx). pose proof (fin_sign y Hy).
  destruct (Bsign x), (Bsign y); cbn in *; nra.
Qed.
Lemma div_rounds x y : finite x -> finite y -> B2R y <> 0 -> rounds_to (div x y) (B2R x / B2R y).
Proof.
  intros Hx Hy Hn. destruct (fdiv_spec x y Hx Hn) as [(H1 & H2 & H3 & _)|(-> & H)]; [by left|].
  apply rounds_inf; [|done]. pose proof (fin_sign x Hx). pose proof (fin_sign y Hy).
  assert (B2R y < 0 -> / B2R y < 0) as Hneg by apply Rinv_lt_0_compat.
  assert (0 < B2R y -> 0 < / B2R y) as Hpos by apply Rinv_0_lt_compat.
  unfold Rdiv. destruct (Bsign x), (Bsign y); cbn in *.
  - specialize (Hneg ltac:(lra)). nra.
  - specialize (Hpos ltac:(lra)). nra.
  - specialize (Hneg ltac:(lra)). nra.
  - specialize (Hpos ltac:(lra)). nra.
Qed.

Lemma add_le a b x y : le a b = true -> finite x -> finite y -> B2R x <= B2R y -> le (add a x) (add b y) = true.
Proof.
  intros Hab Hx Hy Hxy. destruct (le_not_nan _ _ Hab) as [Na Nb].
  destruct (is_finite a) eqn:Ha, (is_finite b) eqn:Hb.
  - eapply rounds_le; [by apply add_rounds|by apply add_rounds|]. apply le_finite in Hab; [lra|done|done].
  - destruct b as [|[]| |]; try done.
    + apply le_minf_inv in Hab. by subst a.
    + replace (add (B754_infinity false) y) with (@B754_infinity prec emax false) by (by destruct y).
      apply le_pinf. by apply add_not_nan.
  - destruct a as [|[]| |]; try done.
    + replace (add (B754_infinity true) x) with (@B754_infinity prec emax true) by (by destruct x).
      apply le_minf. by apply add_not_nan.
    + apply le_pinf_inv in Hab. by subst b.
  - destruct a as [|[]| |]; try done; destruct b as [|[]| |]; try done; by destruct x, y.
Qed.

Lemma fold_le a b xs ys : le a b = true ->
  Forall2 (fun x y => finite x /\ finite y /\ le x y = true) xs ys ->
  le (fold_left add xs a) (fold_left add ys b) = true.
Proof.
  intros Hab H. revert a b Hab. induction H as [|x y xs ys (Hx & Hy & Hxy) H IH]; intros a b Hab; cbn; [done|].
  apply IH. apply add_le; try done. by apply le_finite in Hxy.
Qed.

Lemma div_le s t d : le s t = true -> finite d -> 0 < B2R d -> Bsign d = false -> le (div s d) (div t d) = true.
Proof.
  intros Hst Hd Hpos Hsign. destruct (le_not_nan _ _ Hst) as [Ns Nt].
  assert (B2R d <> 0) as Hn by lra.
  destruct (is_finite s) eqn:Hs, (is_finite t) eqn:Ht.
  - eapply rounds_le; [by apply div_rounds|by apply div_rounds|]. apply le_finite in Hst; [|done|done].
    apply Rmult_le_compat_r; [|done]. apply Rlt_le. by apply Rinv_0_lt_compat.
  - destruct t as [|[]| |]; try done.
    + apply le_minf_inv in Hst. by subst s.
    + replace (div (B754_infinity false) d) with (@B754_infinity prec emax false).
      * apply le_pinf. by apply div_not_nan.
      * destruct d as [|[]| |[]]; try done; cbn in Hpos; lra.
  - destruct s as [|[]| |]; try done.
    + replace (div (B754_infinity true) d) with (@B754_infinity prec emax true).
      * apply le_minf. by apply div_not_nan.
      * destruct d as [|[]| |[]]; try done; cbn in Hpos; lra.
    + apply le_pinf_inv in Hst. by subst t.
  - destruct d as [|[]| |[]]; try done; try (cbn in Hpos; lra).
    destruct s as [|[]| |]; try done; destruct t as [|[]| |]; done.
Qed.

(** ** Products and squares *)
Lemma mul_comm x y : mul x y = mul y x.
Proof.
  apply B2SF_inj. unfold fmul. destruct x as [sx|sx| |sx mx ex Hx], y as [sy|sy| |sy my ey Hy]; cbn; try done;
    try (by destruct sx, sy).
  rewrite !B2SF_SF2B. rewrite (Pos.mul_comm mx my), (Z.add_comm ex ey). by destruct sx, sy.
Qed.

Lemma square_opp x y : finite x -> finite y -> B2R x = - B2R y -> fsquare prec emax x = fsquare prec emax y.
Proof.
  intros Hx Hy E. unfold fsquare. assert (B2R x * B2R x = B2R y * B2R y) as Es by (rewrite E; ring).
  destruct (fmul_spec x x Hx Hx) as [(H1 & H2 & H3 & H4)|(-> & H)],
    (fmul_spec y y Hy Hy) as [(G1 & G2 & G3 & G4)|(-> & G)]; rewrite Es in *; try lra.
  - apply B2R_Bsign_inj; [done|done|by rewrite H2, G2|]. rewrite H4, G4. by destruct (Bsign x), (Bsign y).
  - by destruct (Bsign x), (Bsign y).
Qed.

Lemma rnd_opp v : rnd (- v) = - rnd v.
Proof. apply round_NE_opp. Qed.

Lemma square_error_comm x y : fsquare_error prec emax x y = fsquare_error prec emax y x.
Proof.
  unfold fsquare_error. destruct (is_finite x) eqn:Hx, (is_finite y) eqn:Hy.
  - assert (B2R y - B2R x = - (B2R x - B2R y)) as E by lra.
    destruct (fsub_spec x y Hx Hy) as [(H1 & H2 & H3 & _)|(-> & _ & H)],
      (fsub_spec y x Hy Hx) as [(G1 & G2 & G3 & _)|(-> & _ & G)];
      rewrite E, rnd_opp in *; rewrite ?Rabs_Ropp in *; try lra.
    + apply square_opp; [done|done|]. rewrite H2, G2. lra.
    + by destruct (Bsign x), (Bsign y).
  - destruct x as [[]|[]| |[]], y as [[]|[]| |[]]; try done.
  - destruct x as [[]|[]| |[]], y as [[]|[]| |[]]; try done.
  - destruct x as [[]|[]| |[]], y as [[]|[]| |[]]; try done.
Qed.

Lemma sub_self x : finite x -> sub x x = zero.
Proof.
  intros Hx. destruct (fsub_spec x x Hx Hx) as [(H1 & H2 & _ & H4)|(_ & H & _)]; [|by destruct (Bsign x)].
  rewrite Rminus_eq_0 in *. rewrite rnd_0 in H2. apply B2R_Bsign_inj; [done|done|done|].
  rewrite H4. rewrite Rcompare_Eq by done. by destruct (Bsign x).
Qed.
End ieee.
