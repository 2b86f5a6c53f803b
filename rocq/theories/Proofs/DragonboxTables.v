(** The cached powers of ten are good enough: checks over all exponents, and what they establish. *)
From Verif Require Import Base.Cpp Model.Dragonbox Proofs.DragonboxArith Proofs.DragonboxCore Proofs.DragonboxRegular
  Proofs.Farey.
Set Default Proof Using "Type".
Local Open Scope Z_scope.

(** [10^k * 2^(2W - 1 - l)] as a fraction of integers, from [p5 = 5^|k|]. *)
Definition power_num (W k l p5 : Z) : Z := Z.shiftl (if 0 <=? k then p5 else 1) (Z.max (2 * W - 1 - l + k) 0).
Definition power_den (W k l p5 : Z) : Z := Z.shiftl (if 0 <=? k then 1 else p5) (Z.max (- (2 * W - 1 - l + k)) 0).

(** A multiple of the denominator. *)
Definition mul_den (W k l p5 n : Z) : Z := Z.shiftl (if 0 <=? k then n else n * p5) (Z.max (- (2 * W - 1 - l + k)) 0).
Lemma mul_den_eq W k l p5 n : mul_den W k l p5 n = n * power_den W k l p5.
Proof. unfold mul_den, power_den. rewrite !Z.shiftl_mul_pow2 by lia. destruct (0 <=? k); ring. Qed.

Lemma pow5_pos k : 0 < 5 ^ Z.abs k.
Proof. apply Z.pow_pos_nonneg; lia. Qed.
Lemma power_num_pos W k l : 0 < power_num W k l (5 ^ Z.abs k).
Proof.
  unfold power_num. rewrite Z.shiftl_mul_pow2 by lia. pose proof (pow5_pos k).
  apply Z.mul_pos_pos; [by destruct (0 <=? k)|apply pow2_pos; lia].
Qed.
Lemma power_den_pos W k l : 0 < power_den W k l (5 ^ Z.abs k).
Proof.
  unfold power_den. rewrite Z.shiftl_mul_pow2 by lia. pose proof (pow5_pos k).
  apply Z.mul_pos_pos; [by destruct (0 <=? k)|apply pow2_pos; lia].
Qed.

Section tables.
  Context (I : float_info) {E : Type} (A : cache_accessor E) (cval : E -> Z) (cok : E -> Prop) (cokb : E -> bool).
  Context (Hcokb : forall ca, cokb ca = true -> cok ca).
  (** The cached numbers are too large by less than [sl]. *)
  Context (sl : Z) (emin emax : Z) (nmax : Z).
  Let W := carrier_bits I.
  Let S := small_divisor I.
  Let prec := num_significand_bits I + 1.
  Let N := 2 ^ (prec + 1).

  (** One power of ten. *)
  Definition check_k (k p5 : Z) : bool :=
    match floor_log2_pow10 k, get_cached_power A k with
    | Ok l, Ok ca =>
        let n := power_num W k l p5 in
        let m := mul_den W k l p5 (cval ca) in
        cokb ca && (m - mul_den W k l p5 sl <? n) && (n <=? m)
    | _, _ => false
    end.
  Fixpoint check_ks (n : nat) (dir k p5 : Z) : bool :=
    match n with
    | O => true
    | Datatypes.S n => check_k k p5 && check_ks n dir (k + dir) (p5 * 5)
    end.

  Definition known (k : Z) : Prop := check_k k (5 ^ Z.abs k) = true.

  Lemma check_ks_ok n dir k : (dir = 1 /\ 0 <= k \/ dir = -1 /\ k <= 0) ->
    check_ks n dir k (5 ^ Z.abs k) = true -> forall i, (i < n)%nat -> known (k + dir * Z.of_nat i).
  Proof.
    revert k. induction n as [|n IH]; intros k Hd Hc i Hi; [lia|]. cbn [check_ks] in Hc.
    apply andb_prop in Hc as [Hk Hc]. destruct i as [|i].
    - rewrite Z.mul_0_r, Z.add_0_r. done.
    - replace (k + dir * Z.of_nat (Datatypes.S i)) with (k + dir + dir * Z.of_nat i) by lia.
      apply IH; [lia| |lia].
      replace (5 ^ Z.abs (k + dir)) with (5 ^ Z.abs k * 5); [done|].
      replace (Z.abs (k + dir)) with (Z.abs k + 1) by lia. rewrite Z.pow_add_r by lia. done.
  Qed.

  Lemma known_all lo hi : lo <= 0 -> 0 <= hi ->
    check_ks (Z.to_nat (hi + 1)) 1 0 1 = true -> check_ks (Z.to_nat (- lo + 1)) (-1) 0 1 = true ->
    forall k, lo <= k <= hi -> known k.
  Proof.
    intros Hlo Hhi Hup Hdown k Hk. destruct (Z.le_gt_cases 0 k).
    - pose proof (check_ks_ok _ 1 0 ltac:(lia) Hup (Z.to_nat k) ltac:(lia)) as Hr.
      by replace (0 + 1 * Z.of_nat (Z.to_nat k)) with k in Hr by lia.
    - pose proof (check_ks_ok _ (-1) 0 ltac:(lia) Hdown (Z.to_nat (- k)) ltac:(lia)) as Hr.
      by replace (0 + -1 * Z.of_nat (Z.to_nat (- k))) with k in Hr by lia.
  Qed.

  Lemma known_spec k : known k -> exists l ca,
    floor_log2_pow10 k = Ok l /\ get_cached_power A k = Ok ca /\ cok ca /\
    (cval ca - sl) * power_den W k l (5 ^ Z.abs k) < power_num W k l (5 ^ Z.abs k) <=
      cval ca * power_den W k l (5 ^ Z.abs k).
  Proof using Hcokb.
    unfold known, check_k. intros H.
    destruct (floor_log2_pow10 k) as [l| | |]; try done.
    destruct (get_cached_power A k) as [ca| | |]; try done.
    apply andb_prop in H as [H H3]. apply andb_prop in H as [H1 H2].
    rewrite !mul_den_eq in *. exists l, ca. rewrite Z.ltb_lt in H2. rewrite Z.leb_le in H3.
    rewrite Z.mul_sub_distr_r. auto.
  Qed.

  (** One binary exponent, with its certificate. *)
  Definition small_k (k : Z) : bool := (-31 <=? k) && (k <=? 55).
  Definition check_e (e q q' : Z) : bool :=
    match floor_log10_pow2 e with
    | Ok lg =>
        let k := - (lg - kappa I) in
        match floor_log2_pow10 k, get_cached_power A k with
        | Ok l, Ok ca =>
            let c := cval ca in
            let beta := e + l in
            let b := 2 * W - beta in
            let qc := q * c in let qc' := q' * c in
            let p := Z.shiftr qc b in let p' := Z.shiftr qc' b + 1 in
            let D := qc - Z.shiftl p b in let D' := Z.shiftl p' b - qc' in
            let Nmin := if e =? emin then 1 else 2 ^ prec in
            let am := (Nmin + q - 1) / q in
            let d2 := Z.shiftr (2 * c) b in
            (min_k I <=? k) && (k <=? max_k I) && (1 <=? beta) && (beta <=? 15)
            && (0 <? q) && (0 <=? q') && (N <? q + q') && (p' * q - p * q' =? 1)
            && (Z.shiftl N beta <=? 2 ^ W) && (S <=? d2) && (d2 <? 10 * S) && (Z.shiftr (N * c) b <=? nmax)
            && (let rest := (Z.shiftl 1 b <=? Z.shiftl (D * am) W)
                            || ((am * q mod 2 =? 0) && negb (Z.shiftr (am * q * c) b mod S =? S / 2)
                                && (N <? (am + 1) * q) && (Z.shiftl 1 b <=? Z.shiftl D' W)) in
                if small_k k then
                  let p5 := 5 ^ Z.abs k in
                  let xn := power_num W k l p5 in let xd := Z.shiftl (power_den W k l p5) b in
                  if p * xd =? xn * q then
                    (Z.shiftl (N * (c * xd - Z.shiftl xn b)) W <? Z.shiftl xd b)
                    && (Z.shiftl 1 b <=? Z.shiftl D' W)
                  else (p * xd <? xn * q) && rest
                else (Z.shiftl p b <=? qc - q * sl) && rest)
        | _, _ => false
        end
    | _ => false
    end.
  Fixpoint check_es (e : Z) (certs : list (Z * Z)) : bool :=
    match certs with
    | [] => true
    | (q, q') :: certs => check_e e q q' && check_es (e + 1) certs
    end.

  (** What is true of an exponent that passes. *)
  Definition good (e : Z) : Prop := exists lg l ca,
    let k := - (lg - kappa I) in let beta := e + l in
    let c := cval ca in let B := 2 ^ (2 * W - beta) in
    let xn := power_num W k l (5 ^ Z.abs k) in let xd := power_den W k l (5 ^ Z.abs k) * B in
    floor_log10_pow2 e = Ok lg /\ get_cached_power A k = Ok ca /\ floor_log2_pow10 k = Ok l /\
    1 <= beta <= 15 /\ cok ca /\ N * 2 ^ beta <= 2 ^ W /\
    S <= fl xn xd 2 < 10 * S /\ fl xn xd N <= nmax /\
    (forall n, 0 < n <= N -> n * c / B = fl xn xd n) /\
    (forall n, 0 < n <= N -> (e = emin \/ 2 ^ prec <= n) ->
      Z.odd n = true \/ fl xn xd n mod S = S / 2 ->
      (n * c) mod B * 2 ^ W < B <-> (xd | n * xn)).

  Lemma check_e_ok e q q' : 2 <= N -> 32 <= W -> 0 <= prec ->
    (forall k, min_k I <= k <= max_k I -> known k) -> check_e e q q' = true -> good e.
  Proof using Hcokb.
    intros HN2 HW Hprec Hknown Hc. unfold check_e in Hc.
    destruct (floor_log10_pow2 e) as [lg| | |] eqn:Hlg; try done.
    set (k := - (lg - kappa I)) in *.
    destruct (floor_log2_pow10 k) as [l| | |] eqn:Hl; try done.
    destruct (get_cached_power A k) as [ca| | |] eqn:Hca; try done.
    set (c := cval ca) in *. set (beta := e + l) in *. cbv zeta in Hc.
    rewrite !andb_true_iff in Hc.
    destruct Hc as ((((((((((((Hk1 & Hk2) & Hb1) & Hb2) & Hq) & Hq') & HN) & Huni) & HNb) & Hd1) & Hd2) & Hnm) & Hc).
    rewrite ?Z.leb_le, ?Z.ltb_lt, ?Z.eqb_eq in *.
    destruct (known_spec k (Hknown k (conj Hk1 Hk2))) as (l2 & ca2 & Hl2 & Hca2 & Hcok & Hlo & Hhi).
    rewrite Hl in Hl2. injection Hl2 as <-. rewrite Hca in Hca2. injection Hca2 as <-. fold c in Hlo, Hhi.
    pose proof (power_num_pos W k l) as Hnum. pose proof (power_den_pos W k l) as Hden.
    rewrite !Z.shiftl_mul_pow2, !Z.shiftr_div_pow2 in * by lia. rewrite !Z.mul_1_l in *.
    set (B := 2 ^ (2 * W - beta)) in *.
    assert (HB : 0 < B) by (apply pow2_pos; lia).
    set (En := power_num W k l (5 ^ Z.abs k)) in *. set (Ed := power_den W k l (5 ^ Z.abs k)) in *.
    set (p := q * c / B) in *. set (p' := q' * c / B + 1) in *.
    assert (HR : 0 < 2 ^ W) by (apply pow2_pos; lia).
    assert (Hxd : 0 < Ed * B) by (apply Z.mul_pos_pos; lia).
    assert (Hle : En * B <= c * (Ed * B)).
    { replace (c * (Ed * B)) with (c * Ed * B) by ring. apply Z.mul_le_mono_nonneg_r; lia. }
    assert (Hp' : c * q' < p' * B).
    { unfold p'. pose proof (Z.div_mod (q' * c) B ltac:(lia)). pose proof (Z.mod_pos_bound (q' * c) B HB). lia. }
    set (Nmin := if e =? emin then 1 else 2 ^ prec) in *.
    set (am := (Nmin + q - 1) / q) in *.
    assert (Ham : (am - 1) * q < Nmin).
    { pose proof (Z.div_mod (Nmin + q - 1) q ltac:(lia)). pose proof (Z.mod_pos_bound (Nmin + q - 1) q Hq).
      fold am in H. lia. }
    assert (HNminn : forall n, 0 < n -> (e = emin \/ 2 ^ prec <= n) -> Nmin <= n).
    { intros n Hn [->|Hn2]; unfold Nmin; [rewrite Z.eqb_refl; lia|]. destruct (e =? emin); lia. }
    assert (Hlow : p * (Ed * B) <= En * q).
    { destruct (small_k k).
      - destruct (Z.eqb_spec (p * (Ed * B)) (En * q)) as [Heq|Hne]; [lia|].
        apply andb_prop in Hc as [Hc _]. apply Z.ltb_lt in Hc. lia.
      - apply andb_prop in Hc as [Hc _]. apply Z.leb_le in Hc.
        replace (p * (Ed * B)) with (p * B * Ed) by ring.
        transitivity ((q * c - q * sl) * Ed); [apply Z.mul_le_mono_nonneg_r; lia|].
        replace ((q * c - q * sl) * Ed) with (q * ((c - sl) * Ed)) by ring.
        rewrite (Z.mul_comm En). apply Z.mul_le_mono_nonneg_l; lia. }
    assert (Hfl : forall n, 0 < n <= N -> n * c / B = fl En (Ed * B) n).
    { intros n Hn. unfold fl. by eapply (farey_floor En (Ed * B) c B N p q p' q'). }
    assert (Htest : forall n, 0 < n <= N -> (e = emin \/ 2 ^ prec <= n) ->
      Z.odd n = true \/ fl En (Ed * B) n mod S = S / 2 ->
      (n * c) mod B * 2 ^ W < B <-> (Ed * B | n * En)).
    { intros n Hn Hmin Hcase. specialize (HNminn n ltac:(lia) Hmin).
      assert (Hrest : (B <=? (q * c - p * B) * am * 2 ^ W)
                  || ((am * q mod 2 =? 0) && negb (am * q * c / B mod S =? S / 2)
                      && (N <? (am + 1) * q) && (B <=? (p' * B - q' * c) * 2 ^ W)) = true ->
                p * (Ed * B) < En * q -> (n * c) mod B * 2 ^ W < B <-> (Ed * B | n * En)).
      { intros Hr Hstrict. apply orb_prop in Hr as [Hr|Hr].
        - apply Z.leb_le in Hr.
          apply (farey_never En (Ed * B) c B N (2 ^ W) p q p' q') with am; try done; lia.
        - rewrite !andb_true_iff in Hr. destruct Hr as (((Hr1 & Hr2) & Hr3) & Hr4).
          rewrite ?Z.leb_le, ?Z.ltb_lt, ?Z.eqb_eq, ?negb_true_iff, ?Z.eqb_neq in *.
          apply (farey_once En (Ed * B) c B N (2 ^ W) p q p' q') with am; try done; try lia.
          intros ->. destruct Hcase as [Hodd|Hmod].
          + rewrite Zmod_odd, Hodd in Hr1. done.
          + rewrite <- Hfl in Hmod by done. done. }
      destruct (small_k k).
      - destruct (Z.eqb_spec (p * (Ed * B)) (En * q)) as [Heq|Hne].
        + apply andb_prop in Hc as [Hc1 Hc2]. apply Z.ltb_lt in Hc1. apply Z.leb_le in Hc2.
          apply (farey_exact En (Ed * B) c B N (2 ^ W) p q p' q'); try done; lia.
        + apply andb_prop in Hc as [Hc1 Hc2]. apply Z.ltb_lt in Hc1. auto.
      - apply andb_prop in Hc as [Hc1 Hc2]. apply Z.leb_le in Hc1. apply Hrest; [done|].
        replace (p * (Ed * B)) with (p * B * Ed) by ring.
        apply Z.le_lt_trans with ((q * c - q * sl) * Ed); [apply Z.mul_le_mono_nonneg_r; lia|].
        replace ((q * c - q * sl) * Ed) with (q * ((c - sl) * Ed)) by ring.
        rewrite (Z.mul_comm En). apply Z.mul_lt_mono_pos_l; lia. }
    exists lg, l, ca. cbv zeta. fold k beta c B En Ed. rewrite !Hfl in * by lia.
    split_and!; try done; lia.
  Qed.

  Lemma check_es_ok e certs : 2 <= N -> 32 <= W -> 0 <= prec ->
    (forall k, min_k I <= k <= max_k I -> known k) -> check_es e certs = true ->
    forall i, (i < length certs)%nat -> good (e + Z.of_nat i).
  Proof using Hcokb.
    intros HN2 HW Hprec Hknown. revert e. induction certs as [|[q q'] certs IH]; intros e Hc i Hi; cbn in Hi; [lia|].
    cbn [check_es] in Hc. apply andb_prop in Hc as [Hc1 Hc2]. destruct i as [|i].
    - rewrite Z.add_0_r. by eapply check_e_ok.
    - replace (e + Z.of_nat (Datatypes.S i)) with (e + 1 + Z.of_nat i) by lia. apply IH; [done|lia].
  Qed.

  (** One binary exponent, for the power of two that has narrower gaps below than above. *)
  Definition check_short (e : Z) : bool :=
    match shorter_interval_case I A e, floor_log10_pow2_minus_log10_4_over_3 e with
    | Ok (s, j), Ok mk =>
        let k := - mk in
        match floor_log2_pow10 k, get_cached_power A k with
        | Ok l, Ok ca =>
            let t := j - mk in
            let b := 2 * W + 1 - (e + l) in
            let d := if e =? emin then 2 else 1 in
            let '(lo, hi, u) :=
              if small_k k then
                let p5 := 5 ^ Z.abs k in
                (power_num W k l p5, power_num W k l p5, Z.shiftl (power_den W k l p5) b)
              else (cval ca - sl, cval ca, Z.shiftl 1 b) in
            let u1 := u * 10 ^ t in
            let su := s * u1 in
            (min_k I <=? k) && (k <=? max_k I) && (0 <=? b) && (0 <=? t) && (0 <? s)
            && (let ylo := Z.shiftl lo (prec + 1) in let yhi := Z.shiftl hi (prec + 1) in
                let m10 := s / 10 * (10 * u1) in
                (yhi - d * hi <=? su) && (su <=? ylo + 2 * lo)
                && (m10 <? ylo - d * lo) && (yhi + 2 * hi <? m10 + 10 * u1)
                && (((2 * (su - ylo) <=? u1) && (- u1 <=? 2 * (su - yhi)))
                    || ((su - u1 <? ylo - d * lo) && ((yhi <=? su) || (yhi + 2 * hi <? su + u1)))))
        | _, _ => false
        end
    | _, _ => false
    end.
  Fixpoint check_shorts (n : nat) (e : Z) : bool :=
    match n with O => true | Datatypes.S n => check_short e && check_shorts n (e + 1) end.

  Definition good_short (e : Z) : Prop := exists s mk l t,
    let k := - mk in
    let num := power_num W k l (5 ^ Z.abs k) in
    let den := power_den W k l (5 ^ Z.abs k) * 2 ^ (2 * W + 1 - (e + l)) in
    let Y := 2 ^ (prec + 1) in
    let low := Y - (if e =? emin then 2 else 1) in
    let high := Y + 2 in
    shorter_interval_case I A e = Ok (s, mk + t) /\ 0 <= 2 * W + 1 - (e + l) /\ 0 < s /\ 0 <= t /\
    (low * num <= s * 10 ^ t * den <= high * num) /\
    (forall m, ~ (low * num <= m * 10 ^ (t + 1) * den <= high * num)) /\
    (forall m, low * num <= m * 10 ^ t * den <= high * num ->
       Z.abs (s * 10 ^ t * den - Y * num) <= Z.abs (m * 10 ^ t * den - Y * num)).

  Lemma check_short_ok e : 0 <= prec -> (forall k, min_k I <= k <= max_k I -> known k) -> check_short e = true ->
    good_short e.
  Proof using Hcokb.
    intros Hprec Hknown Hc. unfold check_short in Hc.
    destruct (shorter_interval_case I A e) as [[s j]| | |] eqn:Hs; try done.
    destruct (floor_log10_pow2_minus_log10_4_over_3 e) as [mk| | |] eqn:Hmk; try done.
    set (k := - mk) in *.
    destruct (floor_log2_pow10 k) as [l| | |] eqn:Hl; try done.
    destruct (get_cached_power A k) as [ca| | |] eqn:Hca; try done.
    cbv zeta in Hc.
    set (d := if e =? emin then 2 else 1) in *.
    set (t := j - mk) in *. set (b := 2 * W + 1 - (e + l)) in *.
    set (En := power_num W k l (5 ^ Z.abs k)) in *. set (Ed := power_den W k l (5 ^ Z.abs k)) in *.
    destruct (if small_k k then (En, En, Z.shiftl Ed b) else (cval ca - sl, cval ca, Z.shiftl 1 b))
      as [[lo hi] u] eqn:Hu.
    rewrite !andb_true_iff in Hc.
    destruct Hc as (((((Hk1 & Hk2) & Hb) & Ht) & Hspos) & ((((Hin1 & Hin2) & Hno) & Hno2) & Hclose)).
    rewrite ?Z.leb_le, ?Z.ltb_lt in *.
    destruct (known_spec k (Hknown k (conj Hk1 Hk2))) as (l2 & ca2 & Hl2 & Hca2 & Hcok & Hlo & Hhi).
    rewrite Hl in Hl2. injection Hl2 as <-. rewrite Hca in Hca2. injection Hca2 as <-.
    pose proof (power_num_pos W k l) as Hnum. pose proof (power_den_pos W k l) as Hden. fold En Ed in Hnum, Hden, Hlo, Hhi.
    assert (HP : 0 < 2 ^ b) by (apply pow2_pos; lia).
    rewrite !Z.shiftl_mul_pow2 in * by lia. set (Y := 2 ^ (prec + 1)) in *.
    set (low := Y - d) in *. set (high := Y + 2) in *.
    replace (hi * Y - d * hi) with (low * hi) in * by (unfold low; ring).
    replace (lo * Y - d * lo) with (low * lo) in * by (unfold low; ring).
    replace (hi * Y + 2 * hi) with (high * hi) in * by (unfold high; ring).
    replace (lo * Y + 2 * lo) with (high * lo) in * by (unfold high; ring).
    rewrite (Z.mul_comm hi Y), (Z.mul_comm lo Y) in *.
    assert (HY : 2 <= Y).
    { unfold Y. replace 2 with (2 ^ 1) at 1 by done. apply Z.pow_le_mono_r; lia. }
    assert (Hlow : 0 <= low) by (unfold low, d; destruct (e =? emin); lia).
    set (den := Ed * 2 ^ b). assert (Hdp : 0 < den) by (apply Z.mul_pos_pos; lia).
    assert (Hb3 : 0 < u /\ lo * den <= En * u <= hi * den).
    { destruct (small_k k); injection Hu as <- <- <-.
      - split; [apply Z.mul_pos_pos; lia|]. unfold den. lia.
      - split; [lia|]. unfold den. rewrite Z.mul_1_l.
        replace ((cval ca - sl) * (Ed * 2 ^ b)) with ((cval ca - sl) * Ed * 2 ^ b) by ring.
        replace (cval ca * (Ed * 2 ^ b)) with (cval ca * Ed * 2 ^ b) by ring.
        split; apply Z.mul_le_mono_nonneg_r; lia. }
    clear Hu. destruct Hb3 as (Hup & Hlo2 & Hhi2).
    assert (H10 : 0 < 10 ^ t) by (apply Z.pow_pos_nonneg; lia).
    (* a multiple of the unit against a multiple of the quarter *)
    assert (Hge : forall a M, 0 <= a -> a * hi <= M * u -> a * En <= M * den).
    { intros a M Ha H. apply (Z.mul_le_mono_pos_r _ _ u); [done|].
      replace (a * En * u) with (a * (En * u)) by ring. replace (M * den * u) with (M * u * den) by ring.
      transitivity (a * (hi * den)); [apply Z.mul_le_mono_nonneg_l; lia|].
      replace (a * (hi * den)) with (a * hi * den) by ring. apply Z.mul_le_mono_nonneg_r; lia. }
    assert (Hle : forall a M, 0 <= a -> M * u <= a * lo -> M * den <= a * En).
    { intros a M Ha H. apply (Z.mul_le_mono_pos_r _ _ u); [done|].
      replace (a * En * u) with (a * (En * u)) by ring. replace (M * den * u) with (M * u * den) by ring.
      transitivity (a * (lo * den)); [|apply Z.mul_le_mono_nonneg_l; lia].
      replace (a * (lo * den)) with (a * lo * den) by ring. apply Z.mul_le_mono_nonneg_r; lia. }
    assert (Hlt : forall a M, 0 <= a -> M * u < a * lo -> M * den < a * En).
    { intros a M Ha H. apply (Z.mul_lt_mono_pos_r u); [done|].
      replace (a * En * u) with (a * (En * u)) by ring. replace (M * den * u) with (M * u * den) by ring.
      apply Z.lt_le_trans with (a * (lo * den)); [|apply Z.mul_le_mono_nonneg_l; lia].
      replace (a * (lo * den)) with (a * lo * den) by ring. apply Z.mul_lt_mono_pos_r; lia. }
    assert (Hgt : forall a M, 0 <= a -> a * hi < M * u -> a * En < M * den).
    { intros a M Ha H. apply (Z.mul_lt_mono_pos_r u); [done|].
      replace (a * En * u) with (a * (En * u)) by ring. replace (M * den * u) with (M * u * den) by ring.
      apply Z.le_lt_trans with (a * (hi * den)); [apply Z.mul_le_mono_nonneg_l; lia|].
      replace (a * (hi * den)) with (a * hi * den) by ring. apply Z.mul_lt_mono_pos_r; lia. }
    replace (s * (u * 10 ^ t)) with (s * 10 ^ t * u) in * by ring.
    exists s, mk, l, t. cbv zeta. fold k b En Ed d Y low high den.
    split_and!; try done.
    - rewrite Hs. f_equal. f_equal. unfold t. lia.
    - by apply Hge.
    - apply Hle; [lia|done].
    - intros m [Hm1 Hm2]. rewrite Z.pow_add_r in Hm1, Hm2 by lia. change (10 ^ 1) with 10 in Hm1, Hm2.
      set (u10 := 10 * (u * 10 ^ t)) in *.
      assert (Hu10 : 0 < u10) by (unfold u10; lia).
      set (m0 := s / 10) in *.
      destruct (Z.le_gt_cases m m0) as [Hmm|Hmm].
      + assert (m * (10 ^ t * 10) * den < low * En); [|lia]. apply Hlt; [done|].
        replace (m * (10 ^ t * 10) * u) with (m * u10) by (unfold u10; ring).
        apply Z.le_lt_trans with (m0 * u10); [apply Z.mul_le_mono_nonneg_r; lia|lia].
      + assert (high * En < m * (10 ^ t * 10) * den); [|lia]. apply Hgt; [lia|].
        replace (m * (10 ^ t * 10) * u) with (m * u10) by (unfold u10; ring).
        assert ((m0 + 1) * u10 <= m * u10) by (apply Z.mul_le_mono_nonneg_r; lia). lia.
    - intros m [Hm1 Hm2].
      assert (Hd1 : 0 < 10 ^ t * den) by (apply Z.mul_pos_pos; lia).
      replace (s * 10 ^ t * den) with (s * (10 ^ t * den)) by ring.
      replace (m * 10 ^ t * den) with (m * (10 ^ t * den)) in * by ring.
      apply orb_prop in Hclose as [Hn|Ho].
      + apply andb_prop in Hn as [Hn1 Hn2]. rewrite Z.leb_le in *.
        destruct (decide (m = s)) as [->|Hms]; [done|].
        assert (Hnear1 : (2 * (s * 10 ^ t) - 10 ^ t) * den <= (2 * Y) * En) by (apply Hle; lia).
        assert (Hnear2 : (2 * Y) * En <= (2 * (s * 10 ^ t) + 10 ^ t) * den) by (apply Hge; lia).
        set (P := 10 ^ t * den) in *.
        replace ((2 * (s * 10 ^ t) - 10 ^ t) * den) with (2 * (s * P) - P) in Hnear1 by (unfold P; ring).
        replace ((2 * (s * 10 ^ t) + 10 ^ t) * den) with (2 * (s * P) + P) in Hnear2 by (unfold P; ring).
        destruct (Z.lt_total m s) as [Hlts|[|Hgts]]; [|done|].
        * assert ((m + 1) * P <= s * P) by (apply Z.mul_le_mono_nonneg_r; lia). lia.
        * assert ((s + 1) * P <= m * P) by (apply Z.mul_le_mono_nonneg_r; lia). lia.
      + apply andb_prop in Ho as [Ho1 Ho2]. rewrite Z.ltb_lt in Ho1.
        assert (Hms : s <= m).
        { assert (H0 : ((s - 1) * 10 ^ t) * den < low * En) by (apply Hlt; lia).
          assert ((s - 1) * (10 ^ t * den) < m * (10 ^ t * den)) by lia.
          assert (s - 1 < m); [|lia]. by apply (Z.mul_lt_mono_pos_r (10 ^ t * den)). }
        apply orb_prop in Ho2 as [Ho2|Ho2].
        * rewrite Z.leb_le in Ho2. assert (Y * En <= (s * 10 ^ t) * den) by (apply Hge; lia).
          assert (s * (10 ^ t * den) <= m * (10 ^ t * den)) by (apply Z.mul_le_mono_nonneg_r; lia). lia.
        * rewrite Z.ltb_lt in Ho2.
          assert (high * En < ((s + 1) * 10 ^ t) * den) by (apply Hgt; lia).
          assert (m * (10 ^ t * den) < (s + 1) * (10 ^ t * den)) by lia.
          assert (m < s + 1) by (by apply (Z.mul_lt_mono_pos_r (10 ^ t * den))).
          assert (m = s) as -> by lia. done.
  Qed.

  Lemma check_shorts_ok n e : 0 <= prec -> (forall k, min_k I <= k <= max_k I -> known k) ->
    check_shorts n e = true -> forall i, (i < n)%nat -> good_short (e + Z.of_nat i).
  Proof using Hcokb.
    intros Hprec Hknown. revert e. induction n as [|n IH]; intros e Hc i Hi; [lia|].
    cbn [check_shorts] in Hc. apply andb_prop in Hc as [Hc1 Hc2]. destruct i as [|i].
    - rewrite Z.add_0_r. by apply check_short_ok.
    - replace (e + Z.of_nat (Datatypes.S i)) with (e + 1 + Z.of_nat i) by lia. apply IH; [done|lia].
  Qed.
End tables.
