(** Proofs about the integer writers. *)
From Verif Require Import Base.Cpp Model.Numeric Model.FmtInt Spec.FormatSpec.
Set Default Proof Using "Type".
Local Open Scope Z_scope.

(** [c] is the number of digits of [n] in base [b]. *)
Definition ndigits (b n c : Z) : Prop := 1 <= c /\ n < b ^ c /\ (c = 1 \/ b ^ (c - 1) <= n).

Lemma ndigits_unique b n c c' : 1 < b -> 0 <= n -> ndigits b n c -> ndigits b n c' -> c = c'.
Proof.
  intros Hb Hn (H1 & H2 & H3) (H1' & H2' & H3').
  assert (Hlt : forall x y, 1 <= x -> x < y -> n < b ^ x -> (y = 1 \/ b ^ (y - 1) <= n) -> False).
  { intros x y Hx Hxy Hnx [->|Hy]; [lia|].
    assert (b ^ x <= b ^ (y - 1)) by (apply Z.pow_le_mono_r; lia). lia. }
  destruct (Z.lt_trichotomy c c') as [H|[H|H]]; [|done|]; exfalso; eauto.
Qed.

Lemma ndigits_div b n c k :
  1 < b -> 0 <= n -> 0 <= k -> k < c -> ndigits b n c -> ndigits b (n / b ^ k) (c - k).
Proof.
  intros Hb Hn Hk Hkc (H1 & H2 & H3).
  assert (0 < b ^ k) by (apply Z.pow_pos_nonneg; lia).
  split; [lia|]. split.
  - apply Z.div_lt_upper_bound; [lia|]. rewrite <- Z.pow_add_r by lia.
    replace (k + (c - k)) with c by lia. done.
  - destruct (decide (c - k = 1)) as [|Hne]; [by left|right].
    destruct H3 as [->|H3]; [lia|].
    apply Z.div_le_lower_bound; [lia|]. rewrite <- Z.pow_add_r by lia.
    replace (k + (c - k - 1)) with (c - 1) by lia. done.
Qed.

(** ** Counting digits *)

Lemma log2_lor_1 n : 0 <= n -> Z.log2 (Z.lor n 1) = Z.log2 n.
Proof.
  intros Hn. rewrite Z.log2_lor by lia. change (Z.log2 1) with 0.
  pose proof (Z.log2_nonneg n). lia.
Qed.

Lemma clz_xor w n : (w = 32 \/ w = 64) -> 0 <= n < 2 ^ w -> Z.lxor (clz w (Z.lor n 1)) (w - 1) = Z.log2 n.
Proof.
  intros Hw [Hn Hlt]. unfold clz. rewrite log2_lor_1 by done.
  assert (Hk : 0 <= Z.log2 n < w).
  { split; [apply Z.log2_nonneg|]. destruct (decide (n = 0)) as [->|]; [cbn; lia|].
    apply Z.log2_lt_pow2; lia. }
  generalize dependent (Z.log2 n). intros k Hk.
  assert (H : forallb (fun k => Z.lxor (w - 1 - Z.of_nat k) (w - 1) =? Z.of_nat k) (seq 0 (Z.to_nat w)) = true).
  { destruct Hw as [->| ->]; vm_compute; reflexivity. }
  rewrite forallb_forall in H. specialize (H (Z.to_nat k)).
  rewrite in_seq, Z.eqb_eq, Z2Nat.id in H by lia. apply H. lia.
Qed.

Definition check64 (k : nat) : bool :=
  match bsr2log10 !! k with
  | Some t =>
      (1 <=? t) && (2 ^ (Z.of_nat k + 1) <=? 10 ^ t)
      && match zero_or_powers_of_10 !! Z.to_nat t with
         | Some p => if decide (t = 1) then p =? 0
                     else (p =? 10 ^ (t - 1)) && ((t =? 2) || (10 ^ (t - 2) <=? 2 ^ Z.of_nat k))
         | None => false
         end
  | None => false
  end.

Lemma log2_bounds n k : 0 <= n -> k = Z.log2 n -> n < 2 ^ (k + 1) /\ (n = 0 \/ 2 ^ k <= n).
Proof.
  intros Hn ->. destruct (decide (n = 0)) as [->|Hne]; [split; [vm_compute; done|by left]|].
  pose proof (Z.log2_spec n ltac:(lia)) as [H1 H2]. replace (Z.log2 n + 1) with (Z.succ (Z.log2 n)) by lia. auto.
Qed.

Lemma count_digits64_ok n : 0 <= n < 2 ^ 64 -> wp (count_digits64 n) (ndigits 10 n).
Proof.
  intros Hn. destruct (decide (n = 0)) as [->|Hne].
  { exists 1. split; [vm_compute; reflexivity|]. split; [lia|]. split; [lia|by left]. }
  unfold count_digits64. rewrite (clz_xor 64) by auto.
  destruct (log2_bounds n _ ltac:(lia) eq_refl) as [Hup [|Hlow]]; [done|].
  assert (Hk : 0 <= Z.log2 n < 64).
  { split; [apply Z.log2_nonneg|]. destruct (decide (n = 0)) as [->|]; [cbn; lia|].
    apply Z.log2_lt_pow2; lia. }
  generalize dependent (Z.log2 n). intros k Hup Hlow Hk.
  assert (H : forallb check64 (seq 0 64) = true) by (vm_compute; reflexivity).
  rewrite forallb_forall in H. specialize (H (Z.to_nat k) ltac:(apply in_seq; lia)).
  unfold check64 in H. rewrite Z2Nat.id in H by lia. unfold get.
  destruct (bsr2log10 !! Z.to_nat k) as [t|] eqn:Ht; [|done]. cbn [bind].
  apply andb_prop in H as [H Hp]. apply andb_prop in H as [Ht1 Ht2].
  destruct (zero_or_powers_of_10 !! Z.to_nat t) as [p|] eqn:Hpe; [|done]. cbn [bind].
  apply wp_ok. apply Z.leb_le in Ht1, Ht2.
  case_decide as H1.
  - apply Z.eqb_eq in Hp. subst t p. rewrite decide_False by lia. unfold ndigits. split; [lia|]. split; [|by left].
    replace (1 - 0) with 1 by lia. lia.
  - apply andb_prop in Hp as [Hp Hq]. apply Z.eqb_eq in Hp. subst p.
    assert (Hq' : t = 2 \/ 10 ^ (t - 2) <= 2 ^ k).
    { apply orb_prop in Hq as [Hq|Hq]; [left; by apply Z.eqb_eq|right; by apply Z.leb_le]. }
    case_decide as Hc.
    + split; [lia|]. split; [done|]. destruct Hq' as [->|Hq']; [by left|].
      right. replace (t - 1 - 1) with (t - 2) by lia. lia.
    + split; [lia|]. rewrite Z.sub_0_r. split; [lia|]. right. lia.
Qed.

Definition check32 (k : nat) : bool :=
  match inc_table !! k with
  | Some i =>
      let l := (i + 2 ^ 32 - 1) / 2 ^ 32 in
      let t := l * 2 ^ 32 - i in
      (1 <=? l) && (l <=? 10) && (2 ^ (Z.of_nat k + 1) <=? 10 ^ l)
      && (if decide (l = 1) then t =? 0
          else (t =? 10 ^ (l - 1)) && ((l =? 2) || (10 ^ (l - 2) <=? 2 ^ Z.of_nat k)))
  | None => false
  end.

Lemma count_digits32_ok n : 0 <= n < 2 ^ 32 -> wp (count_digits32 n) (ndigits 10 n).
Proof.
  intros Hn. destruct (decide (n = 0)) as [->|Hne].
  { exists 1. split; [vm_compute; reflexivity|]. split; [lia|]. split; [lia|by left]. }
  unfold count_digits32. rewrite (clz_xor 32) by auto.
  destruct (log2_bounds n _ ltac:(lia) eq_refl) as [Hup [|Hlow]]; [done|].
  assert (Hk : 0 <= Z.log2 n < 32).
  { split; [apply Z.log2_nonneg|]. apply Z.log2_lt_pow2; lia. }
  generalize dependent (Z.log2 n). intros k Hup Hlow Hk.
  assert (H : forallb check32 (seq 0 32) = true) by (vm_compute; reflexivity).
  rewrite forallb_forall in H. specialize (H (Z.to_nat k) ltac:(apply in_seq; lia)).
  unfold check32 in H. rewrite Z2Nat.id in H by lia. unfold get.
  destruct (inc_table !! Z.to_nat k) as [i|] eqn:Ht; [|done]. cbn [bind].
  apply wp_ok.
  set (l := (i + 2 ^ 32 - 1) / 2 ^ 32) in *. clearbody l. cbn zeta in H.
  apply andb_prop in H as [H Hp]. apply andb_prop in H as [H Ht2]. apply andb_prop in H as [Ht0 Ht1].
  apply Z.leb_le in Ht0, Ht1, Ht2.
  set (t := l * 2 ^ 32 - i) in *. assert (Hi : i = l * 2 ^ 32 - t) by lia. clearbody t. subst i.
  assert (Hsh : Z.shiftr ((n + (l * 2 ^ 32 - t)) mod 2 ^ 64) 32 = if decide (n < t) then l - 1 else l).
  { assert (0 <= t < 2 ^ 32).
    { case_decide; [apply Z.eqb_eq in Hp; lia|]. apply andb_prop in Hp as [Hp _]. apply Z.eqb_eq in Hp. subst t.
      split; [apply Z.pow_nonneg; lia|]. assert (10 ^ (l - 1) <= 10 ^ 9) by (apply Z.pow_le_mono_r; lia). lia. }
    rewrite Z.mod_small by lia. rewrite Z.shiftr_div_pow2 by lia.
    destruct (decide (n < t)); symmetry.
    - apply (Z.div_unique_pos _ _ _ (n - t + 2 ^ 32)); lia.
    - apply (Z.div_unique_pos _ _ _ (n - t)); lia. }
  rewrite Hsh. clear Hsh.
  destruct (decide (n < t)) as [H1|H1].
  - revert Hp. case_decide as Hl; intros Hp.
    + apply Z.eqb_eq in Hp. lia.
    + apply andb_prop in Hp as [Hp Hq]. apply Z.eqb_eq in Hp. subst t.
      assert (Hq' : l = 2 \/ 10 ^ (l - 2) <= 2 ^ k).
      { apply orb_prop in Hq as [Hq|Hq]; [left; by apply Z.eqb_eq|right; by apply Z.leb_le]. }
      split; [lia|]. split; [lia|]. destruct Hq' as [->|Hq']; [by left|].
      right. replace (l - 1 - 1) with (l - 2) by lia. lia.
  - split; [lia|]. split; [lia|]. destruct (decide (l = 1)) as [->|Hl]; [by left|].
    apply andb_prop in Hp as [Hp Hq]. apply Z.eqb_eq in Hp. subst t. right. lia.
Qed.

Lemma count_digits_fallback_ok n : 0 <= n -> wp (count_digits_fallback n) (ndigits 10 n).
Proof.
  intros Hn. unfold count_digits_fallback.
  apply (wp_loop (fun '(m, count) => 0 <= m /\ 1 <= count /\
           forall c, ndigits 10 m c -> ndigits 10 n (c + count - 1))
         (fun '(m, _) => Z.to_nat (Z.log2 m))).
  - lia.
  - split_and!; [done|lia|]. intros c Hc. by replace (c + 1 - 1) with c by lia.
  - intros [m count] (Hm & Hc & Hinv). apply wp_ok.
    assert (Hd : forall c, 1 <= c -> m < 10 ^ c -> (c = 1 \/ 10 ^ (c - 1) <= m) -> ndigits 10 n (c + count - 1)).
    { intros c ???. by apply Hinv. }
    repeat case_decide.
    + specialize (Hd 1). replace (1 + count - 1) with count in Hd by lia. apply Hd; lia.
    + specialize (Hd 2). replace (2 + count - 1) with (count + 1) in Hd by lia. apply Hd; lia.
    + specialize (Hd 3). replace (3 + count - 1) with (count + 2) in Hd by lia. apply Hd; lia.
    + specialize (Hd 4). replace (4 + count - 1) with (count + 3) in Hd by lia. apply Hd; lia.
    + split; [split_and!; [apply Z.div_pos; lia|lia|]|].
      * intros c Hc'. replace (c + (count + 4) - 1) with (c + 4 + count - 1) by lia. apply Hinv.
        destruct Hc' as (Ha & Hb & Hd'). split; [lia|]. rewrite Z.pow_add_r by lia. split.
        -- pose proof (Z.mod_pos_bound m 10000 ltac:(lia)). pose proof (Z.div_mod m 10000 ltac:(lia)). lia.
        -- right. pose proof (Z.mod_pos_bound m 10000 ltac:(lia)). pose proof (Z.div_mod m 10000 ltac:(lia)).
           destruct Hd' as [->|Hd']; [change (10 ^ (1 + 4 - 1)) with 10000; lia|].
           replace (c + 4 - 1) with ((c - 1) + 4) by lia. rewrite Z.pow_add_r by lia. lia.
      * assert (Z.log2 (m / 10000) < Z.log2 m).
        { assert (m / 10000 = 0 \/ 0 < m / 10000) as [->|Hpos].
          { pose proof (Z.div_pos m 10000 ltac:(lia) ltac:(lia)). lia. }
          - cbn. assert (0 < Z.log2 m) by (apply Z.log2_pos; lia). lia.
          - assert (Hle : Z.log2 (2 * (m / 10000)) <= Z.log2 m).
            { apply Z.log2_le_mono. pose proof (Z.mod_pos_bound m 10000 ltac:(lia)).
              pose proof (Z.div_mod m 10000 ltac:(lia)). lia. }
            rewrite Z.log2_double in Hle by lia. lia. }
        pose proof (Z.log2_nonneg (m / 10000)). lia.
Qed.

Lemma count_digits_ok w n : (w = 32 \/ w = 64) -> 0 <= n < 2 ^ w -> wp (count_digits w n) (ndigits 10 n).
Proof.
  intros Hw Hn. unfold count_digits. case_decide as H.
  - subst w. by apply count_digits32_ok.
  - apply count_digits64_ok. destruct Hw; [done|by subst w].
Qed.

Lemma count_digits_bits_ok w bits n :
  (w = 32 \/ w = 64) -> 0 < bits -> 0 <= n < 2 ^ w -> wp (count_digits_bits w bits n) (ndigits (2 ^ bits) n).
Proof.
  intros Hw Hb Hn. unfold count_digits_bits. case_decide as H32.
  - subst w. rewrite (clz_xor 32) by auto. apply wp_ok.
    pose proof (Z.log2_nonneg n) as Hl.
    pose proof (Z.div_pos (Z.log2 n) bits Hl Hb) as Hq.
    pose proof (Z.mod_pos_bound (Z.log2 n) bits Hb) as Hr. pose proof (Z.div_mod (Z.log2 n) bits ltac:(lia)) as Hd.
    destruct (log2_bounds n _ ltac:(lia) eq_refl) as [Hup Hlow].
    split; [lia|]. split.
    + rewrite <- Z.pow_mul_r by lia. eapply Z.lt_le_trans; [exact Hup|]. apply Z.pow_le_mono_r; lia.
    + destruct Hlow as [->|Hlow]; [left; rewrite Z.div_small; [done|cbn; lia]|].
      right. rewrite <- Z.pow_mul_r by lia. eapply Z.le_trans; [|exact Hlow]. apply Z.pow_le_mono_r; lia.
  - set (b := 2 ^ bits). assert (Hb2 : 2 <= b).
    { unfold b. replace 2 with (2 ^ 1) at 1 by done. apply Z.pow_le_mono_r; lia. }
    apply (wp_loop (fun '(m, k) => 0 <= k /\ m = n / b ^ k /\ (k = 0 \/ b ^ k <= n))
             (fun '(m, k) => Z.to_nat (Z.log2 n + 1 - k))).
    + lia.
    + split; [lia|]. split; [by rewrite Z.pow_0_r, Z.div_1_r|by left].
    + intros [m k] (Hk & -> & Hmk). rewrite Z.shiftr_div_pow2 by lia. fold b. apply wp_ok.
      assert (0 < b ^ k) by (apply Z.pow_pos_nonneg; lia).
      assert (Hdd : n / b ^ k / b = n / b ^ (k + 1)).
      { rewrite Z.div_div by lia. rewrite Z.pow_add_r, Z.pow_1_r by lia. done. }
      rewrite Hdd. assert (0 < b ^ (k + 1)) by (apply Z.pow_pos_nonneg; lia).
      case_decide as Hne.
      * assert (Hge : b ^ (k + 1) <= n).
        { destruct (Z.le_gt_cases (b ^ (k + 1)) n); [done|]. rewrite Z.div_small in Hne by lia. done. }
        split; [split_and!; [lia|done|by right]|].
        assert (k + 1 <= Z.log2 n); [|lia].
        apply Z.log2_le_pow2; [lia|]. eapply Z.le_trans; [|exact Hge]. apply Z.pow_le_mono_l. lia.
      * split; [lia|]. split.
        -- destruct (Z.le_gt_cases (b ^ (k + 1)) n) as [Hle|]; [|done].
           apply Z.div_small_iff in Hne; lia.
        -- replace (k + 1 - 1) with k by lia. destruct Hmk; [left; lia|by right].
Qed.

(** ** Digits *)

Definition digits_of (b n : Z) (ds : list Z) : Prop :=
  Forall (fun d => 0 <= d < b) ds /\ number b ds = n /\ ds <> [] /\ (head ds = Some 0 -> ds = [0]).

Lemma number_acc b ds acc : fold_left (fun n d => n * b + d) ds acc = acc * b ^ Z.of_nat (length ds) + number b ds.
Proof.
  unfold number. revert acc. induction ds as [|d ds IH]; intros acc.
  - cbn. lia.
  - cbn [fold_left length]. rewrite IH, (IH (0 * b + d)). rewrite Nat2Z.inj_succ, Z.pow_succ_r by lia. ring.
Qed.
Lemma number_app b xs ys : number b (xs ++ ys) = number b xs * b ^ Z.of_nat (length ys) + number b ys.
Proof. unfold number at 1. by rewrite fold_left_app, number_acc. Qed.
Lemma number_cons b x ys : number b (x :: ys) = x * b ^ Z.of_nat (length ys) + number b ys.
Proof. change (x :: ys) with ([x] ++ ys). rewrite number_app. done. Qed.

Lemma number_bound b ds : 1 < b -> Forall (fun d => 0 <= d < b) ds -> 0 <= number b ds < b ^ Z.of_nat (length ds).
Proof.
  intros Hb. induction ds as [|d ds IH]; intros H; [cbn; lia|].
  apply Forall_cons in H as [Hd H]. specialize (IH H). rewrite number_cons. cbn [length].
  rewrite Nat2Z.inj_succ, Z.pow_succ_r by lia.
  assert (0 < b ^ Z.of_nat (length ds)) by (apply Z.pow_pos_nonneg; lia). nia.
Qed.

Lemma digits_of_ndigits b n ds : 1 < b -> digits_of b n ds -> ndigits b n (Z.of_nat (length ds)).
Proof.
  intros Hb (Hf & Hn & Hne & Hz). destruct ds as [|d ds]; [done|].
  apply Forall_cons in Hf as [Hd Hf]. pose proof (number_bound b ds Hb Hf) as Hbd. rewrite number_cons in Hn.
  assert (0 < b ^ Z.of_nat (length ds)) by (apply Z.pow_pos_nonneg; lia).
  cbn [length]. split; [lia|]. split.
  - rewrite Nat2Z.inj_succ, Z.pow_succ_r by lia. subst n. nia.
  - replace (Z.of_nat (S (length ds)) - 1) with (Z.of_nat (length ds)) by lia.
    destruct (decide (d = 0)) as [->|].
    + specialize (Hz eq_refl). injection Hz as ->. by left.
    + right. subst n. nia.
Qed.

(** ** Memory *)

Lemma read_all_some l : read_all (Some <$> l) = Ok l.
Proof. induction l as [|x l IH]; cbn; [done|]. by rewrite IH. Qed.

Lemma put_before_ok (pre suf : mem) (cs : list Z) :
  (length cs <= length pre)%nat ->
  put_before (pre ++ suf) (length pre) cs
  = Ok (take (length pre - length cs) pre ++ (Some <$> cs) ++ suf, (length pre - length cs)%nat).
Proof.
  intros Hle. unfold put_before. rewrite decide_True by done.
  assert (Hw : wp (for_up (length cs) 0 (fun i m => let* c := get cs i in put m (length pre - length cs + i) (Some c)) (pre ++ suf))
               (fun m => m = take (length pre - length cs) pre ++ (Some <$> cs) ++ suf)).
  { apply (wp_for_up (fun i m => m = take (length pre - length cs) pre ++ (Some <$> take i cs)
                                     ++ drop (length pre - length cs + i) pre ++ suf)).
    - rewrite Nat.add_0_r, take_0. change (Some <$> [] : mem) with ([] : mem). rewrite app_nil_l.
      by rewrite (app_assoc (take _ _)), take_drop.
    - intros k m _ Hk ->. cbn [Nat.add] in Hk. apply wp_bind. apply wp_get_lt; [lia|]. intros c Hc.
      apply wp_put.
      + rewrite !app_length, fmap_length, !take_length, drop_length. lia.
      + rewrite insert_app_r_alt by (rewrite take_length; lia). rewrite take_length.
        f_equal. rewrite insert_app_r_alt by (rewrite fmap_length, take_length; lia).
        rewrite fmap_length, take_length.
        assert (Hl : (length pre - length cs + k < length pre)%nat) by lia.
        destruct (lookup_lt_is_Some_2 _ _ Hl) as [x Hx].
        rewrite (drop_S pre x _ Hx).
        match goal with |- context [<[?i := _]> _] => replace i with 0%nat by lia end.
        rewrite (take_S_r cs k c Hc), fmap_app. cbn.
        rewrite <- app_assoc. cbn. by rewrite Nat.add_succ_r.
    - intros m ->. rewrite Nat.add_0_l, (take_ge cs), (drop_ge pre) by lia. done. }
  destruct Hw as (m & -> & ->). done.
Qed.

Lemma digits2_ok v : 0 <= v < 100 -> digits2 v = Ok [digit_char false (v / 10); digit_char false (v mod 10)].
Proof.
  intros Hv.
  assert (H : forallb (fun n => match digits2 (Z.of_nat n) with
                                | Ok l => bool_decide (l = [digit_char false (Z.of_nat n / 10); digit_char false (Z.of_nat n mod 10)])
                                | _ => false end) (seq 0 100) = true) by (vm_compute; reflexivity).
  rewrite forallb_forall in H. specialize (H (Z.to_nat v) ltac:(apply in_seq; lia)).
  rewrite Z2Nat.id in H by lia. destruct (digits2 v) as [l| | |]; try done.
  apply bool_decide_eq_true in H. by subst l.
Qed.

(** ** Writing digits *)

Lemma digit_char_lt10 u d : d < 10 -> digit_char u d = 48 + d.
Proof. intros H. unfold digit_char. by rewrite decide_True. Qed.

Lemma log2_div_lt m k : 2 <= k -> k <= m -> (Z.to_nat (Z.log2 (m / k)) < Z.to_nat (Z.log2 m))%nat.
Proof.
  intros Hk Hm. assert (0 < m / k) by (apply Z.div_str_pos; lia).
  assert (Hle : Z.log2 (2 * (m / k)) <= Z.log2 m).
  { apply Z.log2_le_mono. pose proof (Z.mod_pos_bound m k ltac:(lia)). pose proof (Z.div_mod m k ltac:(lia)). nia. }
  rewrite Z.log2_double in Hle by lia. pose proof (Z.log2_nonneg (m / k)). lia.
Qed.

Lemma format_decimal_ok (pre tl : mem) value :
  0 <= value -> ndigits 10 value (Z.of_nat (length pre)) ->
  wp (format_decimal (pre ++ tl) value (length pre)) (fun '(m, b, e) =>
    b = 0%nat /\ e = length pre /\
    exists ds, digits_of 10 value ds /\ length ds = length pre /\ m = (Some <$> (digit_char false <$> ds)) ++ tl).
Proof.
  intros Hv Hnd. unfold format_decimal. apply wp_bind.
  apply (wp_loop (fun '(m, out, v) => exists p ds,
     m = p ++ (Some <$> (digit_char false <$> ds)) ++ tl /\ length p = out /\ 0 <= v /\ ndigits 10 v (Z.of_nat out) /\
     Forall (fun d => 0 <= d < 10) ds /\ value = v * 10 ^ Z.of_nat (length ds) + number 10 ds /\
     (out + length ds = length pre)%nat /\ (ds = [] \/ 1 <= v))
   (fun '(m, out, v) => Z.to_nat (Z.log2 v))).
  - lia.
  - exists pre, []. cbn. split_and!; [done|done|done|done|constructor|lia|lia|by left].
  - intros [[m out] v] (p & ds & -> & <- & Hv0 & Hn & Hf & Hval & Hlen & Hnz).
    case_decide as H100.
    + pose proof (Z.mod_pos_bound v 100 ltac:(lia)) as Hmod. rewrite digits2_ok by done. cbn [bind].
      assert (Hp : (3 <= length p)%nat).
      { destruct Hn as (? & Hlt & _). assert (~ (Z.of_nat (length p) <= 2)); [|lia]. intros ?.
        assert (10 ^ Z.of_nat (length p) <= 10 ^ 2) by (apply Z.pow_le_mono_r; lia). lia. }
      rewrite put_before_ok by (cbn; lia). cbn [bind length]. apply wp_ok.
      set (d1 := v mod 100 / 10). set (d2 := v mod 100 mod 10).
      split; [|apply log2_div_lt; lia].
      exists (take (length p - 2) p), (d1 :: d2 :: ds).
      assert (Hd1 : 0 <= d1 < 10). { unfold d1. split; [apply Z.div_pos; lia|apply Z.div_lt_upper_bound; lia]. }
      assert (Hd2 : 0 <= d2 < 10) by (apply Z.mod_pos_bound; lia).
      split_and!.
      * done.
      * rewrite take_length. lia.
      * apply Z.div_pos; lia.
      * replace (Z.of_nat (length p - 2)) with (Z.of_nat (length p) - 2) by lia.
        change 100 with (10 ^ 2). apply ndigits_div; [lia|lia|lia|lia|done].
      * by repeat constructor; try lia.
      * rewrite !number_cons. cbn [length]. rewrite !Nat2Z.inj_succ, !Z.pow_succ_r by lia.
        pose proof (Z.div_mod v 100 ltac:(lia)) as E1. pose proof (Z.div_mod (v mod 100) 10 ltac:(lia)) as E2.
        fold d1 d2 in E2. rewrite Hval. nia.
      * cbn [length]. lia.
      * right. apply Z.div_le_lower_bound; lia.
    + apply wp_ok.
      assert (Hp : (1 <= length p <= 2)%nat).
      { destruct Hn as (? & Hlt & Hge). split; [lia|]. destruct Hge as [|Hge]; [lia|].
        assert (~ (3 <= Z.of_nat (length p))); [|lia]. intros ?.
        assert (10 ^ 2 <= 10 ^ (Z.of_nat (length p) - 1)) by (apply Z.pow_le_mono_r; lia). lia. }
      case_decide as H10.
      * assert (Hl1 : length p = 1%nat).
        { destruct Hn as (? & Hlt & [|Hge]); [lia|]. destruct (decide (length p = 1%nat)); [done|].
          assert (Hl : length p = 2%nat) by lia. rewrite Hl in Hge. cbn in Hge. lia. }
        rewrite put_before_ok by (cbn; lia). cbn [bind length]. apply wp_ok. rewrite Hl1. cbn [take Nat.sub app].
        split; [done|]. split; [done|]. exists (v :: ds). split_and!.
        -- split_and!; [constructor; [lia|done]|rewrite number_cons; lia|done|].
           cbn. intros [= ->]. destruct Hnz as [->|]; [done|lia].
        -- cbn. lia.
        -- rewrite <- (digit_char_lt10 false) by lia. done.
      * assert (Hl2 : length p = 2%nat).
        { destruct Hn as (? & Hlt & _). destruct (decide (length p = 2%nat)); [done|].
          assert (Hl : length p = 1%nat) by lia. rewrite Hl in Hlt. cbn in Hlt. lia. }
        rewrite digits2_ok by lia. cbn [bind].
        rewrite put_before_ok by (cbn; lia). cbn [bind length]. apply wp_ok. rewrite Hl2. cbn [take Nat.sub app].
        split; [done|]. split; [done|]. exists (v / 10 :: v mod 10 :: ds).
        pose proof (Z.div_mod v 10 ltac:(lia)). pose proof (Z.mod_pos_bound v 10 ltac:(lia)).
        split_and!.
        -- split_and!.
           ++ constructor; [|constructor; [lia|done]]. lia.
           ++ rewrite !number_cons. cbn [length]. rewrite !Nat2Z.inj_succ, !Z.pow_succ_r by lia. rewrite Hval. nia.
           ++ done.
           ++ cbn. intros [= Hz0]. lia.
        -- cbn. lia.
        -- done.
Qed.

Lemma format_decimal_it_ok w value n :
  (w = 32 \/ w = 64) -> 0 <= value < 2 ^ w -> ndigits 10 value (Z.of_nat n) ->
  wp (format_decimal_it w value n) (fun s => exists ds, digits_of 10 value ds /\ length ds = n /\ s = digit_char false <$> ds).
Proof.
  intros Hw Hv Hn. unfold format_decimal_it.
  assert (Hle : (n <= digits10 w + 1)%nat).
  { destruct Hn as (_ & _ & [|Hn]); [lia|].
    assert (~ (Z.of_nat (digits10 w + 1) <= Z.of_nat n - 1)); [|lia]. intros Hc.
    assert (10 ^ Z.of_nat (digits10 w + 1) <= 10 ^ (Z.of_nat n - 1)) as Hp by (apply Z.pow_le_mono_r; lia).
    destruct Hw as [->| ->]; [change (10 ^ Z.of_nat (digits10 32 + 1)) with (10 ^ 10) in Hp
                             |change (10 ^ Z.of_nat (digits10 64 + 1)) with (10 ^ 20) in Hp]; lia. }
  replace (digits10 w + 1)%nat with (n + (digits10 w + 1 - n))%nat by lia. rewrite replicate_add.
  pose proof (format_decimal_ok (replicate n (Some 0)) (replicate (digits10 w + 1 - n) (Some 0)) value) as H.
  rewrite replicate_length in H. specialize (H ltac:(lia) Hn).
  apply wp_bind. eapply wp_mono; [exact H|]. intros [[m b] e] (-> & -> & ds & Hds & Hl & ->).
  rewrite take_app_alt by (by rewrite !fmap_length). rewrite read_all_some. apply wp_ok. eauto.
Qed.

Lemma hex_digits_ok upper d : 0 <= d < 16 -> get (hex_digits upper) (Z.to_nat d) = Ok (digit_char upper d).
Proof.
  intros Hd.
  assert (H : forallb (fun n => match get (hex_digits upper) n with
                                | Ok c => c =? digit_char upper (Z.of_nat n)
                                | _ => false end) (seq 0 16) = true) by (destruct upper; vm_compute; reflexivity).
  rewrite forallb_forall in H. specialize (H (Z.to_nat d) ltac:(apply in_seq; lia)).
  destruct (get (hex_digits upper) (Z.to_nat d)) as [c| | |]; try done.
  apply Z.eqb_eq in H. by rewrite H, Z2Nat.id by lia.
Qed.

Lemma format_uint_ok bits (pre tl : mem) value upper c :
  1 <= bits <= 4 -> 0 <= value -> ndigits (2 ^ bits) value (Z.of_nat c) -> (c <= length pre)%nat ->
  wp (format_uint bits (pre ++ tl) value (length pre) upper) (fun '(m, e) =>
    e = length pre /\ exists ds, digits_of (2 ^ bits) value ds /\ length ds = c /\
    m = take (length pre - c) pre ++ (Some <$> (digit_char upper <$> ds)) ++ tl).
Proof.
  intros Hb Hv Hn Hc. unfold format_uint. apply wp_bind.
  assert (Hb2 : 2 <= 2 ^ bits).
  { replace 2 with (2 ^ 1) at 1 by done. apply Z.pow_le_mono_r; lia. }
  apply (wp_loop (fun '(m, out, v) => exists k ds,
     m = take out pre ++ (Some <$> (digit_char upper <$> ds)) ++ tl /\ 0 <= v /\ ndigits (2 ^ bits) v (Z.of_nat k) /\
     Forall (fun d => 0 <= d < 2 ^ bits) ds /\ value = v * (2 ^ bits) ^ Z.of_nat (length ds) + number (2 ^ bits) ds /\
     (k + length ds = c)%nat /\ (out + length ds = length pre)%nat /\ (ds = [] \/ 1 <= v))
   (fun '(m, out, v) => Z.to_nat (Z.log2 v))).
  - lia.
  - exists c, []. cbn [fmap list_fmap app length]. rewrite take_ge by lia.
    split_and!; [done|done|done|constructor|cbn; lia|lia|lia|by left].
  - intros [[m out] v] (k & ds & -> & Hv0 & Hk & Hf & Hval & Hlen & Hout & Hnz).
    assert (Hland : Z.land v (Z.shiftl 1 bits - 1) = v mod 2 ^ bits).
    { rewrite Z.shiftl_1_l.
      replace (2 ^ bits - 1) with (Z.ones bits) by (rewrite Z.ones_equiv; lia). apply Z.land_ones. lia. }
    rewrite Hland. set (d := v mod 2 ^ bits). assert (Hd : 0 <= d < 2 ^ bits) by (apply Z.mod_pos_bound; lia).
    assert (Hch : (if decide (bits < 4) then Ok (48 + d) else get (hex_digits upper) (Z.to_nat d)) = Ok (digit_char upper d)).
    { case_decide as H4.
      - rewrite digit_char_lt10; [done|]. assert (2 ^ bits <= 2 ^ 3) by (apply Z.pow_le_mono_r; lia). lia.
      - apply hex_digits_ok. assert (bits = 4) as -> by lia. lia. }
    rewrite Hch. clear Hch. cbn [bind].
    assert (Hk1 : (1 <= k)%nat) by (destruct Hk; lia).
    pose proof (put_before_ok (take out pre) ((Some <$> (digit_char upper <$> ds)) ++ tl) [digit_char upper d]) as Hp.
    rewrite take_length, Nat.min_l in Hp by lia. rewrite Hp by (cbn; lia). cbn [bind length].
    rewrite take_take, Nat.min_l by lia. rewrite Z.shiftr_div_pow2 by lia. apply wp_ok.
    pose proof (Z.div_mod v (2 ^ bits) ltac:(lia)) as Hdm. fold d in Hdm.
    assert (Hnum : value = v / 2 ^ bits * (2 ^ bits) ^ Z.of_nat (length (d :: ds)) + number (2 ^ bits) (d :: ds)).
    { rewrite number_cons. cbn [length]. rewrite Nat2Z.inj_succ, Z.pow_succ_r by lia.
      rewrite Hval, Hdm at 1. ring. }
    pose proof (Z.div_pos v (2 ^ bits) Hv0 ltac:(lia)) as Hq0.
    case_decide as Hne.
    + assert (2 ^ bits <= v).
      { destruct (Z.le_gt_cases (2 ^ bits) v); [done|]. rewrite Z.div_small in Hne by lia. done. }
      assert (Hk2 : (2 <= k)%nat).
      { destruct Hk as (_ & Hlt & _). destruct (decide (k = 1%nat)) as [->|]; [|lia]. rewrite Z.pow_1_r in Hlt. lia. }
      split; [|apply log2_div_lt; lia].
      exists (k - 1)%nat, (d :: ds). split_and!.
      * done.
      * done.
      * replace (Z.of_nat (k - 1)) with (Z.of_nat k - 1) by lia.
        rewrite <- (Z.pow_1_r (2 ^ bits)) at 2. apply ndigits_div; [lia|lia|lia|lia|done].
      * by constructor.
      * exact Hnum.
      * cbn [length]. lia.
      * cbn [length]. lia.
      * right. lia.
    + assert (Hsm : v < 2 ^ bits) by (apply Z.div_small_iff in Hne; lia).
      assert (k = 1%nat) as ->.
      { destruct Hk as (_ & _ & [|Hge]); [lia|]. destruct (decide (k = 1%nat)); [done|].
        assert ((2 ^ bits) ^ 1 <= (2 ^ bits) ^ (Z.of_nat k - 1)) by (apply Z.pow_le_mono_r; lia).
        rewrite Z.pow_1_r in *. lia. }
      apply wp_ok. split; [done|]. exists (d :: ds). split_and!.
      * split_and!; [by constructor| |done|].
        -- rewrite Hnum, Hne. lia.
        -- cbn. intros [= H0]. destruct Hnz as [->|]; [by rewrite H0|]. unfold d in H0. rewrite Z.mod_small in H0 by lia. lia.
      * cbn [length]. lia.
      * replace (length pre - c)%nat with (out - 1)%nat by lia. done.
Qed.

Lemma format_uint_it_ok room w bits value n upper :
  (w = 32 \/ w = 64) -> 1 <= bits <= 4 -> 0 <= value < 2 ^ w -> ndigits (2 ^ bits) value (Z.of_nat n) ->
  wp (format_uint_it room w bits value n upper) (fun s =>
    exists ds, digits_of (2 ^ bits) value ds /\ length ds = n /\ s = digit_char upper <$> ds).
Proof.
  intros Hw Hb Hv Hn. unfold format_uint_it.
  assert (Hgen : forall k (x : option Z), (n <= k)%nat ->
     wp (format_uint bits (replicate k x) value n upper) (fun '(m, e) => exists ds,
       digits_of (2 ^ bits) value ds /\ length ds = n /\
       m = (Some <$> (digit_char upper <$> ds)) ++ replicate (k - n) x)).
  { intros k x Hk. replace k with (n + (k - n))%nat at 1 by lia. rewrite replicate_add.
    pose proof (format_uint_ok bits (replicate n x) (replicate (k - n) x) value upper n) as H.
    rewrite replicate_length in H. specialize (H Hb ltac:(lia) Hn ltac:(lia)).
    eapply wp_mono; [exact H|]. intros [m e] (-> & ds & Hds & Hl & ->).
    rewrite Nat.sub_diag, take_0. eauto. }
  destruct room.
  - apply wp_bind. eapply wp_mono; [apply (Hgen n None); lia|]. intros [m e] (ds & Hds & Hl & ->).
    rewrite Nat.sub_diag. cbn [replicate]. rewrite app_nil_r, read_all_some. apply wp_ok. eauto.
  - assert (Hle : (n <= Z.to_nat (w / bits) + 1)%nat).
    { destruct Hn as (_ & _ & [|Hn]); [lia|].
      assert (~ (w / bits + 1 <= Z.of_nat n - 1)); [|pose proof (Z.div_pos w bits ltac:(lia) ltac:(lia)); lia]. intros Hc.
      pose proof (Z.div_pos w bits ltac:(lia) ltac:(lia)).
      assert (2 ^ w <= (2 ^ bits) ^ (Z.of_nat n - 1)); [|lia].
      rewrite <- Z.pow_mul_r by lia. apply Z.pow_le_mono_r; [lia|].
      pose proof (Z.div_mod w bits ltac:(lia)). pose proof (Z.mod_pos_bound w bits ltac:(lia)). nia. }
    apply wp_bind. eapply wp_mono; [apply (Hgen _ (Some 0) Hle)|]. intros [m e] (ds & Hds & Hl & ->).
    rewrite take_app_alt by (by rewrite !fmap_length). rewrite read_all_some. apply wp_ok. eauto.
Qed.

(** ** The default text of an integer *)

Lemma neg_mod w z : 0 < w -> - 2 ^ w < z < 0 -> (0 - z mod 2 ^ w) mod 2 ^ w = - z.
Proof.
  intros Hw Hz. rewrite <- (Z.mod_unique z (2 ^ w) (-1) (z + 2 ^ w)) by lia.
  symmetry. apply (Z.mod_unique _ _ (-1)); lia.
Qed.
Lemma lnot_mod w z : 0 < w -> - 2 ^ w < z < 0 -> (Z.lnot (z mod 2 ^ w) mod 2 ^ w + 1) mod 2 ^ w = - z.
Proof.
  intros Hw Hz. rewrite <- (Z.mod_unique z (2 ^ w) (-1) (z + 2 ^ w)) by lia.
  rewrite <- (Z.mod_unique (Z.lnot (z + 2 ^ w)) (2 ^ w) (-1) (- z - 1)) by (unfold Z.lnot; lia).
  rewrite Z.mod_small by lia. lia.
Qed.

(** Types of integers with a modelled writer. *)
Definition int_type (t : ity) : Prop := 1 <= bits t <= 64.
Lemma uwidth_cases t : uwidth t = 32 \/ uwidth t = 64.
Proof. unfold uwidth. case_decide; auto. Qed.
Lemma in_range_uwidth t z : int_type t -> in_range t z = true -> - 2 ^ uwidth t < z < 2 ^ uwidth t /\ (signed t = false -> 0 <= z).
Proof.
  intros Ht Hz. unfold in_range in Hz. apply andb_prop in Hz as [Hl Hh]. apply Z.leb_le in Hl, Hh.
  unfold lo in Hl. unfold hi in Hh.
  assert (Hp : 2 ^ (bits t) <= 2 ^ uwidth t).
  { apply Z.pow_le_mono_r; [lia|]. unfold uwidth. unfold int_type in Ht. case_decide; lia. }
  assert (Hq : 2 ^ bits t = 2 * 2 ^ (bits t - 1)).
  { rewrite <- Z.pow_succ_r by (unfold int_type in Ht; lia). f_equal. lia. }
  assert (0 < 2 ^ (bits t - 1)) by (apply Z.pow_pos_nonneg; unfold int_type in Ht; lia).
  destruct (signed t); split; try lia; done.
Qed.
Lemma is_negative_eq t z : int_type t -> in_range t z = true -> is_negative t z = bool_decide (z < 0).
Proof.
  intros Ht Hz. destruct (in_range_uwidth t z Ht Hz) as [_ Hu]. unfold is_negative.
  destruct (signed t); cbn.
  - case_bool_decide; [by apply Z.ltb_lt|by apply Z.ltb_ge; lia].
  - specialize (Hu eq_refl). by rewrite bool_decide_false by lia.
Qed.
Lemma numeral_digits b u n ds : digits_of b n ds -> numeral b u n (digit_char u <$> ds).
Proof. intros (?&?&?&?). exists ds. auto. Qed.

Lemma abs_value_eq t z : int_type t -> in_range t z = true ->
  (if is_negative t z then (Z.lnot (z mod 2 ^ uwidth t) mod 2 ^ uwidth t + 1) mod 2 ^ uwidth t else z mod 2 ^ uwidth t) = Z.abs z.
Proof.
  intros Ht Hz. destruct (in_range_uwidth t z Ht Hz) as [Hr _]. rewrite is_negative_eq by done.
  pose proof (uwidth_cases t). case_bool_decide.
  - rewrite lnot_mod by lia. lia.
  - rewrite Z.mod_small by lia. lia.
Qed.

Lemma write_default_ok room t z : int_type t -> in_range t z = true -> wp (write_default room t z) (decimal z).
Proof.
  intros Ht Hz. destruct (in_range_uwidth t z Ht Hz) as [Hr _]. pose proof (uwidth_cases t) as Hw.
  unfold write_default. rewrite abs_value_eq by done. rewrite is_negative_eq by done.
  apply wp_bind. eapply wp_mono; [apply count_digits_ok; [done|lia]|]. intros c Hc.
  assert (Hc1 : 1 <= c) by apply Hc.
  assert (Hsg : forall (m : mem), (if bool_decide (z < 0) then [Some 45] else []) ++ m
                = (Some <$> (if decide (z < 0) then [45] else [])) ++ m).
  { intros m. case_bool_decide; [rewrite decide_True by done|rewrite decide_False by done]; done. }
  destruct room.
  - pose proof (format_decimal_ok (replicate (Z.to_nat c) None) [] (Z.abs z) ltac:(lia)) as H.
    rewrite replicate_length, app_nil_r, Z2Nat.id in H by lia. specialize (H Hc).
    apply wp_bind. eapply wp_mono; [exact H|]. intros [[m b] e] (_ & _ & ds & Hds & _ & ->).
    rewrite Hsg, app_nil_r, <- fmap_app, read_all_some. apply wp_ok.
    exists (digit_char false <$> ds). split; [by apply numeral_digits|done].
  - apply wp_bind. eapply wp_mono; [apply format_decimal_it_ok; [done|lia|by rewrite Z2Nat.id by lia]|].
    intros s (ds & Hds & _ & ->).
    case_bool_decide; cbn [read_all bind]; apply wp_ok; exists (digit_char false <$> ds);
      (split; [by apply numeral_digits|]); [by rewrite decide_True|by rewrite decide_False].
Qed.
