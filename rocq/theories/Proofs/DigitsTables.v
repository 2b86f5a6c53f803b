(** The first segment of the digits of a double is what it should be: a check over all binary exponents, and what it
    establishes. *)
From Coq Require Import QArith Qpower Lqa.
From Verif Require Import Base.Cpp Model.Dragonbox Spec.FloatSpec Proofs.FloatSpecProofs Proofs.DragonboxArith
  Proofs.DragonboxCore Proofs.DragonboxRegular Proofs.Farey Proofs.DragonboxTables Proofs.DragonboxProofs Proofs.DigitsCerts.
Set Default Proof Using "Type".
Local Open Scope Z_scope.

Definition check_d (e q q' : Z) : bool :=
  match floor_log10_pow2 e with
  | Ok lg =>
      let k := 2 - lg in
      match floor_log2_pow10 k, double_cached_power k with
      | Ok l, Ok ca =>
          let c := 2 * u128_val ca in
          let beta := e + l in
          let b := 128 - beta in
          let qc := q * c in let qc' := q' * c in
          let p := Z.shiftr qc b in let p' := Z.shiftr qc' b + 1 in
          let D := qc - Z.shiftl p b in let D' := Z.shiftl p' b - qc' in
          let am := (2 ^ 52 + q - 1) / q in
          (-292 <=? k) && (k <=? 341) && (1 <=? beta) && (beta <=? 10)
          && (0 <? q) && (0 <=? q') && (2 ^ 53 <? q + q') && (p' * q - p * q' =? 1)
          && (10 ^ 17 <=? Z.shiftr (2 ^ 52 * c) b) && (Z.shiftr (2 ^ 53 * c) b <? 10 ^ 19)
          && (let rest := Z.shiftl 1 b <=? Z.shiftl (D * am) 64 in
              if small_k k then
                let p5 := 5 ^ Z.abs k in
                let xn := 2 * power_num 64 k l p5 in let xd := Z.shiftl (power_den 64 k l p5) b in
                if p * xd =? xn * q then
                  (Z.shiftl (2 ^ 53 * (c * xd - Z.shiftl xn b)) 64 <? Z.shiftl xd b)
                  && (Z.shiftl 1 b <=? Z.shiftl D' 64)
                else (p * xd <? xn * q) && rest
              else (Z.shiftl p b <=? qc - q * 6) && rest)
      | _, _ => false
      end
  | _ => false
  end.
Fixpoint check_ds (e : Z) (certs : list (Z * Z)) : bool :=
  match certs with
  | [] => true
  | (q, q') :: certs => check_d e q q' && check_ds (e + 1) certs
  end.

(** What is true of an exponent that passes. *)
Definition good_d (e : Z) : Prop := exists lg l ca,
  let k := 2 - lg in let beta := e + l in
  let c := 2 * u128_val ca in let B := 2 ^ (128 - beta) in
  let xn := 2 * power_num 64 k l (5 ^ Z.abs k) in let xd := power_den 64 k l (5 ^ Z.abs k) * B in
  floor_log10_pow2 e = Ok lg /\ double_cached_power k = Ok ca /\ floor_log2_pow10 k = Ok l /\
  1 <= beta <= 10 /\ -292 <= k <= 341 /\ u128_ok ca /\
  10 ^ 17 <= 2 ^ 52 * xn / xd /\ 2 ^ 53 * xn / xd < 10 ^ 19 /\
  (forall n, 0 < n <= 2 ^ 53 -> n * c / B = n * xn / xd) /\
  (forall n, 2 ^ 52 <= n <= 2 ^ 53 -> (n * c) mod B * 2 ^ 64 < B <-> (xd | n * xn)).

Lemma check_d_ok e q q' : check_d e q q' = true -> good_d e.
Proof.
  intros Hc. unfold check_d in Hc.
  destruct (floor_log10_pow2 e) as [lg| | |] eqn:Hlg; try done.
  set (k := 2 - lg) in *.
  destruct (floor_log2_pow10 k) as [l| | |] eqn:Hl; try done.
  destruct (double_cached_power k) as [ca| | |] eqn:Hca; try done.
  set (c := 2 * u128_val ca) in *. set (beta := e + l) in *. cbv zeta in Hc.
  rewrite !andb_true_iff in Hc.
  destruct Hc as ((((((((((Hk1 & Hk2) & Hb1) & Hb2) & Hq) & Hq') & HN) & Huni) & Hd1) & Hd2) & Hc).
  rewrite ?Z.leb_le, ?Z.ltb_lt, ?Z.eqb_eq in *.
  destruct (known_spec float_info_double accessor_double u128_val u128_ok okb okb_ok 3 k
    (double_known k ltac:(cbn; lia))) as (l2 & ca2 & Hl2 & Hca2 & Hcok & Hlo & Hhi).
  cbn [get_cached_power accessor_double carrier_bits float_info_double] in Hca2, Hlo, Hhi.
  rewrite Hl in Hl2. injection Hl2 as <-. rewrite Hca in Hca2. injection Hca2 as <-.
  pose proof (power_num_pos 64 k l) as Hnum. pose proof (power_den_pos 64 k l) as Hden.
  rewrite !Z.shiftl_mul_pow2, !Z.shiftr_div_pow2 in * by lia. rewrite !Z.mul_1_l in *.
  set (B := 2 ^ (128 - beta)) in *.
  assert (HB : 0 < B) by (apply pow2_pos; lia).
  set (En0 := power_num 64 k l (5 ^ Z.abs k)) in *. set (En := 2 * En0) in *. set (Ed := power_den 64 k l (5 ^ Z.abs k)) in *.
  assert (Hlo2 : (c - 6) * Ed < En) by (unfold En, c; lia).
  assert (Hhi2 : En <= c * Ed) by (unfold En, c; lia).
  assert (Hnum2 : 0 < En) by (unfold En; lia). clear Hlo Hhi.
  set (p := q * c / B) in *. set (p' := q' * c / B + 1) in *.
  assert (HR : 0 < 2 ^ 64) by done.
  assert (Hxd : 0 < Ed * B) by (apply Z.mul_pos_pos; lia).
  assert (Hle : En * B <= c * (Ed * B)).
  { replace (c * (Ed * B)) with (c * Ed * B) by ring. apply Z.mul_le_mono_nonneg_r; lia. }
  assert (Hp' : c * q' < p' * B).
  { unfold p'. pose proof (Z.div_mod (q' * c) B ltac:(lia)). pose proof (Z.mod_pos_bound (q' * c) B HB). lia. }
  set (am := (2 ^ 52 + q - 1) / q) in *.
  assert (Ham : (am - 1) * q < 2 ^ 52).
  { pose proof (Z.div_mod (2 ^ 52 + q - 1) q ltac:(lia)). pose proof (Z.mod_pos_bound (2 ^ 52 + q - 1) q Hq).
    fold am in H. lia. }
  assert (Hlow : p * (Ed * B) <= En * q).
  { destruct (small_k k).
    - destruct (Z.eqb_spec (p * (Ed * B)) (En * q)) as [Heq|Hne]; [lia|].
      apply andb_prop in Hc as [Hc _]. apply Z.ltb_lt in Hc. lia.
    - apply andb_prop in Hc as [Hc _]. apply Z.leb_le in Hc.
      replace (p * (Ed * B)) with (p * B * Ed) by ring.
      transitivity ((q * c - q * 6) * Ed); [apply Z.mul_le_mono_nonneg_r; lia|].
      replace ((q * c - q * 6) * Ed) with (q * ((c - 6) * Ed)) by ring.
      rewrite (Z.mul_comm En). apply Z.mul_le_mono_nonneg_l; lia. }
  assert (Hfl : forall n, 0 < n <= 2 ^ 53 -> n * c / B = n * En / (Ed * B)).
  { intros n Hn. by eapply (farey_floor En (Ed * B) c B (2 ^ 53) p q p' q'). }
  exists lg, l, ca. cbv zeta. fold k beta c B Ed En0 En. rewrite !Hfl in * by lia.
  split_and!; try done.
  intros n Hn.
  assert (Hrest : (B <=? (q * c - p * B) * am * 2 ^ 64) = true ->
      p * (Ed * B) < En * q -> (n * c) mod B * 2 ^ 64 < B <-> (Ed * B | n * En)).
  { intros Hr Hstrict. apply Z.leb_le in Hr.
    apply (farey_never En (Ed * B) c B (2 ^ 53) (2 ^ 64) p q p' q') with am; try done; lia. }
  destruct (small_k k).
  - destruct (Z.eqb_spec (p * (Ed * B)) (En * q)) as [Heq|Hne].
    + apply andb_prop in Hc as [Hc1 Hc2]. apply Z.ltb_lt in Hc1. apply Z.leb_le in Hc2.
      apply (farey_exact En (Ed * B) c B (2 ^ 53) (2 ^ 64) p q p' q'); try done; lia.
    + apply andb_prop in Hc as [Hc1 Hc2]. apply Z.ltb_lt in Hc1. auto.
  - apply andb_prop in Hc as [Hc1 Hc2]. apply Z.leb_le in Hc1. apply Hrest; [done|].
    replace (p * (Ed * B)) with (p * B * Ed) by ring.
    apply Z.le_lt_trans with ((q * c - q * 6) * Ed); [apply Z.mul_le_mono_nonneg_r; lia|].
    replace ((q * c - q * 6) * Ed) with (q * ((c - 6) * Ed)) by ring.
    rewrite (Z.mul_comm En). apply Z.mul_lt_mono_pos_l; lia.
Qed.

Lemma check_ds_ok e certs : check_ds e certs = true -> forall i, (i < length certs)%nat -> good_d (e + Z.of_nat i).
Proof.
  revert e. induction certs as [|[q q'] certs IH]; intros e Hc i Hi; cbn in Hi; [lia|].
  cbn [check_ds] in Hc. apply andb_prop in Hc as [Hc1 Hc2]. destruct i as [|i].
  - rewrite Z.add_0_r. by eapply check_d_ok.
  - replace (e + Z.of_nat (Datatypes.S i)) with (e + 1 + Z.of_nat i) by lia. apply IH; [done|lia].
Qed.

Lemma digits_ds : check_ds (-1126) certs_digits = true.
Proof. vm_compute. reflexivity. Qed.
Lemma digits_certs : length certs_digits = 2098%nat.
Proof. vm_compute. reflexivity. Qed.
Lemma digits_good e : -1126 <= e <= 971 -> good_d e.
Proof.
  intros He. replace e with (-1126 + Z.of_nat (Z.to_nat (e + 1126))) by lia.
  refine (check_ds_ok (-1126) certs_digits digits_ds _ _). rewrite digits_certs. lia.
Qed.

(** The scaled number, as a rational. *)
Lemma good_scale e l k n : 0 <= 128 - (e + l) ->
  let xn := 2 * power_num 64 k l (5 ^ Z.abs k) in
  let xd := power_den 64 k l (5 ^ Z.abs k) * 2 ^ (128 - (e + l)) in
  (inject_Z n * p2 e * p10 k * inject_Z xd == inject_Z (n * xn))%Q.
Proof.
  intros H xn xd. pose proof (power_scale 64 k l) as Hs.
  unfold xn, xd. rewrite !inject_Z_mult, <- (p2_Z (128 - (e + l))) by done.
  change (2 * 64 - 1 - l) with (127 - l) in Hs.
  assert (Hp : (p2 (127 - l) * inject_Z 2 == p2 e * p2 (128 - (e + l)))%Q).
  { rewrite <- p2_add. replace (e + (128 - (e + l))) with (127 - l + 1) by lia. rewrite p2_add. reflexivity. }
  assert (Hk : (p10 k * p10 (- k) == 1)%Q).
  { rewrite <- p10_add, Z.add_opp_diag_r. reflexivity. }
  set (a := power_num _ _ _ _) in *. set (b := power_den _ _ _ _) in *.
  transitivity (inject_Z n * p10 k * inject_Z b * (p2 e * p2 (128 - (e + l))))%Q; [ring|]. rewrite <- Hp.
  transitivity (inject_Z n * p10 k * inject_Z 2 * (inject_Z b * p2 (127 - l)))%Q; [ring|]. rewrite <- Hs.
  transitivity (inject_Z n * inject_Z 2 * inject_Z a * (p10 k * p10 (- k)))%Q; [ring|]. rewrite Hk. ring.
Qed.
