(** Proofs about format_int. *)
From Verif Require Import Base.Cpp Model.Numeric Model.FmtInt Model.FormatSpecs Model.FormatInt Spec.FormatSpec.
From Verif Require Import Proofs.FmtIntProofs Proofs.FormatValue.
Set Default Proof Using "Type".
Local Open Scope Z_scope.

Lemma put_at (p0 pre suf : mem) (cs : list Z) : (length cs <= length pre)%nat ->
  put_before (p0 ++ pre ++ suf) (length p0 + length pre) cs
  = Ok (p0 ++ take (length pre - length cs) pre ++ (Some <$> cs) ++ suf, (length p0 + (length pre - length cs))%nat).
Proof.
  intros H. pose proof (put_before_ok (p0 ++ pre) suf cs) as Hp. rewrite app_length, <- app_assoc in Hp. rewrite Hp by lia.
  replace (length p0 + length pre - length cs)%nat with (length p0 + (length pre - length cs))%nat by lia.
  rewrite take_app_ge by lia. by replace (length p0 + (length pre - length cs) - length p0)%nat with (length pre - length cs)%nat by lia; rewrite <- app_assoc.
Qed.

Lemma format_decimal_at (p0 pre tl : mem) value :
  0 <= value -> ndigits 10 value (Z.of_nat (length pre)) ->
  wp (format_decimal (p0 ++ pre ++ tl) value (length p0 + length pre)) (fun '(m, b, e) =>
    b = length p0 /\ e = (length p0 + length pre)%nat /\
    exists ds, digits_of 10 value ds /\ length ds = length pre /\ m = p0 ++ (Some <$> (digit_char false <$> ds)) ++ tl).
Proof.
  intros Hv Hnd. unfold format_decimal. apply wp_bind.
  apply (wp_loop (fun '(m, out, v) => exists p ds,
     m = p0 ++ p ++ (Some <$> (digit_char false <$> ds)) ++ tl /\ (length p0 + length p)%nat = out /\ 0 <= v /\ ndigits 10 v (Z.of_nat (length p)) /\
     Forall (fun d => 0 <= d < 10) ds /\ value = v * 10 ^ Z.of_nat (length ds) + number 10 ds /\
     (length p + length ds = length pre)%nat /\ (ds = [] \/ 1 <= v))
   (fun '(m, out, v) => Z.to_nat (Z.log2 v))).
  - lia.
  - exists pre, []. cbn. split_and!; [done|done|done|done|constructor|lia|lia|by left].
  - intros [[m out] v] (p & ds & -> & <- & Hv0 & Hn & Hf & Hval & Hlen & Hnz).
    case_decide as H100.
    + pose proof (Z.mod_pos_bound v 100 ltac:(lia)) as Hmod. rewrite digits2_ok by done. cbn [bind].
      assert (Hp : (3 <= length p)%nat).
      { destruct Hn as (? & Hlt & _). assert (~ (Z.of_nat (length p) <= 2)); [|lia]. intros ?.
        assert (10 ^ Z.of_nat (length p) <= 10 ^ 2) by (apply Z.pow_le_mono_r; lia). lia. }
      rewrite put_at by (cbn; lia). cbn [bind length]. apply wp_ok.
      set (d1 := v mod 100 / 10). set (d2 := v mod 100 mod 10).
      split; [|apply log2_div_lt; lia].
      exists (take (length p - 2) p), (d1 :: d2 :: ds).
      assert (Hd1 : 0 <= d1 < 10). { unfold d1. split; [apply Z.div_pos; lia|apply Z.div_lt_upper_bound; lia]. }
      assert (Hd2 : 0 <= d2 < 10) by (apply Z.mod_pos_bound; lia).
      split_and!.
      * done.
      * rewrite take_length. lia.
      * apply Z.div_pos; lia.
      * rewrite take_length, Nat.min_l by lia. replace (Z.of_nat (length p - 2)) with (Z.of_nat (length p) - 2) by lia.
        change 100 with (10 ^ 2). apply ndigits_div; [lia|lia|lia|lia|done].
      * by repeat constructor; try lia.
      * rewrite !number_cons. cbn [length]. rewrite !Nat2Z.inj_succ, !Z.pow_succ_r by lia.
        pose proof (Z.div_mod v 100 ltac:(lia)) as E1. pose proof (Z.div_mod (v mod 100) 10 ltac:(lia)) as E2.
        fold d1 d2 in E2. rewrite Hval. nia.
      * rewrite take_length. cbn [length]. lia.
      * right. apply Z.div_le_lower_bound; lia.
    + apply wp_ok.
      assert (Hp : (1 <= length p <= 2)%nat).
      { destruct Hn as (? & Hlt & Hge). split; [lia|]. destruct Hge as [|Hge]; [lia|].
        assert (~ (3 <= Z.of_nat (length p))); [|lia]. intros ?.
        assert (10 ^ 2 <= 10 ^ (Z.of_nat (length p) - 1)) by (apply Z.pow_le_mono_r; lia). lia. }
      case_decide as H10.
      * assert (Hl1 : length p = 1%nat).
        { destruct Hn as (? & Hlt & [|Hge]); [lia|]. destruct (decide (length p = 1%nat)); [done|].
          assert (Hl : length p = 2%nat) by lia. rewrite Hl in Hge. cbn in Hge. lia. }
        rewrite put_at by (cbn; lia). cbn [bind length]. apply wp_ok. rewrite Hl1. cbn [take Nat.sub app].
        split; [done|]. split; [done|]. exists (v :: ds). split_and!.
        -- split_and!; [constructor; [lia|done]|rewrite number_cons; lia|done|].
           cbn. intros [= ->]. destruct Hnz as [->|]; [done|lia].
        -- cbn. lia.
        -- rewrite <- (digit_char_lt10 false) by lia. done.
      * assert (Hl2 : length p = 2%nat).
        { destruct Hn as (? & Hlt & _). destruct (decide (length p = 2%nat)); [done|].
          assert (Hl : length p = 1%nat) by lia. rewrite Hl in Hlt. cbn in Hlt. lia. }
        rewrite digits2_ok by lia. cbn [bind].
        rewrite put_at by (cbn; lia). cbn [bind length]. apply wp_ok. rewrite Hl2. cbn [take Nat.sub app].
        split; [done|]. split; [done|]. exists (v / 10 :: v mod 10 :: ds).
        pose proof (Z.div_mod v 10 ltac:(lia)). pose proof (Z.mod_pos_bound v 10 ltac:(lia)).
        split_and!.
        -- split_and!.
           ++ constructor; [|constructor; [lia|done]]. lia.
           ++ rewrite !number_cons. cbn [length]. rewrite !Nat2Z.inj_succ, !Z.pow_succ_r by lia. rewrite Hval. nia.
           ++ done.
           ++ cbn. intros [= Hz0]. lia.
        -- cbn. lia.
        -- done.
Qed.


Lemma at_most_20 n c : n < 2 ^ 64 -> ndigits 10 n c -> 1 <= c <= 20.
Proof.
  intros Hn (Hc & _ & [->|Hge]); [lia|]. split; [done|]. destruct (decide (c <= 20)); [done|].
  assert (10 ^ 20 <= 10 ^ (c - 1)) by (apply Z.pow_le_mono_r; lia). lia.
Qed.
Lemma format_unsigned_ok n : 0 <= n < 2 ^ 64 ->
  exists ds k, digits_of 10 n ds /\ (k + length ds = 21)%nat /\ (1 <= k)%nat /\
    format_unsigned (replicate buffer_size None) n = Ok (replicate k None ++ (Some <$> (digit_char false <$> ds)) ++ [None], k).
Proof.
  intros Hn. destruct (count_digits_ok 64 n ltac:(by right) Hn) as (c & _ & Hc). pose proof (at_most_20 n c ltac:(lia) Hc) as Hle.
  set (j := Z.to_nat c). set (k := (21 - j)%nat).
  pose proof (format_decimal_at (replicate k None) (replicate j None) [None] n ltac:(lia)) as H.
  rewrite !replicate_length in H. specialize (H ltac:(by unfold j; rewrite Z2Nat.id by lia)).
  replace (replicate k None ++ replicate j None ++ [None]) with (replicate buffer_size (@None Z)) in H.
  2: { rewrite app_assoc, <- replicate_add. replace (k + j)%nat with 21%nat by lia. reflexivity. }
  replace (k + j)%nat with (buffer_size - 1)%nat in H by (unfold buffer_size; lia).
  destruct H as ([[m b] e] & Hfd & -> & _ & ds & Hds & Hlen & ->). exists ds, k. split; [done|]. split; [lia|]. split; [lia|].
  unfold format_unsigned. by rewrite Hfd.
Qed.

Lemma make_ok object t z : int_type t -> in_range t z = true ->
  exists s k, decimal z s /\ (k + length s = 21)%nat /\
    make_format_int object t z = Ok (FormatInt object (replicate k None ++ (Some <$> s) ++ [None]) (object, k)).
Proof.
  intros Ht Hz. destruct (in_range_uwidth t z Ht Hz) as [Hr Hu]. pose proof (uwidth_cases t) as Hw.
  assert (Hle : 2 ^ uwidth t <= 2 ^ 64) by (destruct Hw as [->| ->]; lia).
  destruct (format_unsigned_ok (Z.abs z) ltac:(lia)) as (ds & k & Hds & Hlen & Hk & Hf).
  assert (Hlen' : length (digit_char false <$> ds) = length ds) by apply fmap_length.
  unfold make_format_int. destruct (decide (z < 0)) as [Hneg|Hneg].
  - destruct (signed t); [|specialize (Hu eq_refl); lia]. unfold format_signed. rewrite (proj2 (Z.ltb_lt z 0) Hneg).
    replace ((0 - z mod 2 ^ uwidth t) mod 2 ^ uwidth t) with (Z.abs z).
    2: { rewrite Zminus_mod_idemp_r, Z.mod_small; lia. }
    rewrite Hf. cbn [bind]. exists ([45] ++ (digit_char false <$> ds)), (k - 1)%nat. split; [|split].
    + exists (digit_char false <$> ds). split; [by apply numeral_digits|]. by rewrite decide_True.
    + rewrite app_length, Hlen'. cbn. lia.
    + pose proof (put_before_ok (replicate k None) ((Some <$> (digit_char false <$> ds)) ++ [None]) [45]) as H.
      rewrite replicate_length in H. cbn [length] in H. rewrite H by lia. cbn [bind]. rewrite take_replicate, Nat.min_l by lia. done.
  - assert (Ha : Z.abs z = z) by lia. rewrite Ha in Hf, Hds.
    assert (Hm : z mod 2 ^ uwidth t = z) by (rewrite Z.mod_small; lia).
    exists (digit_char false <$> ds), k. split; [|split; [by rewrite Hlen'|]].
    + exists (digit_char false <$> ds). split; [apply numeral_digits; by rewrite Ha|]. by rewrite decide_False.
    + unfold format_signed. rewrite (proj2 (Z.ltb_ge z 0)) by lia. rewrite Hm, Hf. by destruct (signed t).
Qed.
