(** Multiplying by a slightly too large approximation of a fraction: when the integer part of the product, and
    whether the product is an integer, come out right all the same.

    [X = xn / xd] is the fraction and [c / B >= X] the approximation. The certificate is a pair of neighbours
    [p/q <= X <= c/B < p'/q'] in the Farey sequence of order [N]: no fraction with a denominator up to [N] lies
    strictly between them. *)
From Verif Require Import Base.Cpp.
Set Default Proof Using "Type".
Local Open Scope Z_scope.

Section farey.
  Context (xn xd c B N R p q p' q' : Z).
  Context (Hxd : 0 < xd) (HB : 0 < B) (Hq : 0 < q) (Hq' : 0 <= q') (HR : 0 < R).
  Context (Hle : xn * B <= c * xd) (Huni : p' * q - p * q' = 1) (HN : N < q + q').
  Context (Hlow : p * xd <= xn * q) (Hhigh : c * q' < p' * B).

  Lemma farey_between n m : 0 < n <= N -> n * p < m * q -> m * B <= n * c -> False.
  Proof using Hq Hq' Huni HN Hhigh HB.
    intros Hn Hlt Hc.
    assert (Ha : 0 < n * p' - m * q').
    { assert (m * q' * B <= n * (c * q')) by nia. assert (m * q' * B < n * p' * B) by nia. nia. }
    assert (n = (n * p' - m * q') * q + (m * q - n * p) * q').
    { transitivity (n * (p' * q - p * q')); [rewrite Huni; lia|ring]. }
    nia.
  Qed.

  Lemma farey_floor n : 0 < n <= N -> n * c / B = n * xn / xd.
  Proof using Hxd HB Hq Hq' Hle Huni HN Hlow Hhigh.
    intros Hn. set (m := n * c / B).
    assert (Hm : m * B <= n * c < (m + 1) * B).
    { pose proof (Z.div_mod (n * c) B). pose proof (Z.mod_pos_bound (n * c) B). subst m. lia. }
    apply (Z.div_unique_pos _ _ _ (n * xn - m * xd)); [|lia].
    assert (Hup : n * xn < (m + 1) * xd).
    { assert (n * xn * B <= n * c * xd) by nia. assert (n * c * xd < (m + 1) * B * xd) by nia. nia. }
    destruct (Z.le_gt_cases (m * xd) (n * xn)) as [|Hgt]; [lia|exfalso].
    apply (farey_between n m); [done| |lia].
    assert (n * p * xd < m * q * xd) by nia. nia.
  Qed.

  (** The integer part leaves the fraction on the left of [p/q]. *)
  Lemma farey_rest n : 0 < n <= N ->
    let m := n * c / B in
    exists a b, 0 < a /\ 0 <= b /\ n = a * q - b * q' /\ m = a * p - b * p' /\
      n * c - m * B = a * (q * c - p * B) + b * (p' * B - q' * c).
  Proof using Hxd HB Hq Hq' Hle Huni HN Hlow Hhigh.
    intros Hn m.
    assert (Hm : m * B <= n * c < (m + 1) * B).
    { pose proof (Z.div_mod (n * c) B). pose proof (Z.mod_pos_bound (n * c) B). subst m. lia. }
    assert (Hb : 0 <= n * p - m * q).
    { destruct (Z.le_gt_cases 0 (n * p - m * q)) as [|Hgt]; [done|exfalso].
      apply (farey_between n m); [done|lia|lia]. }
    assert (Hn2 : n = (n * p' - m * q') * q - (n * p - m * q) * q').
    { transitivity (n * (p' * q - p * q')); [rewrite Huni; lia|ring]. }
    assert (Hm2 : m = (n * p' - m * q') * p - (n * p - m * q) * p').
    { transitivity (m * (p' * q - p * q')); [rewrite Huni; lia|ring]. }
    exists (n * p' - m * q'), (n * p - m * q).
    split; [nia|]. split; [done|]. split; [done|]. split; [done|].
    transitivity ((p' * q - p * q') * (n * c - m * B)); [rewrite Huni; lia|ring].
  Qed.

  Lemma divides_iff n : (xd | n * xn) <-> n * xn = (n * xn / xd) * xd.
  Proof using Hxd.
    split.
    - intros [k Hk]. rewrite Hk, Z.div_mul by lia. done.
    - intros H. exists (n * xn / xd). done.
  Qed.

  Lemma below_gap : p * xd < xn * q -> 0 < q * c - p * B.
  Proof using Hxd HB Hq Hle.
    intros Hstrict.
    assert (p * xd * B < xn * q * B) by (apply Z.mul_lt_mono_pos_r; lia).
    assert (q * (xn * B) <= q * (c * xd)) by (apply Z.mul_le_mono_nonneg_l; lia).
    assert (xd * (p * B) < xd * (q * c)) by lia.
    assert (p * B < q * c) by (apply (Z.mul_lt_mono_pos_l xd); lia). lia.
  Qed.

  Lemma not_integer n : 0 < n <= N -> p * xd < xn * q -> ~ (xd | n * xn).
  Proof using Hxd HB Hq Hq' Hle Huni HN Hlow Hhigh.
    intros Hn Hstrict Hd. apply divides_iff in Hd. rewrite <- farey_floor in Hd by done.
    set (m := n * c / B) in *.
    assert (Hm : m * B <= n * c).
    { pose proof (Z.div_mod (n * c) B). pose proof (Z.mod_pos_bound (n * c) B). subst m. lia. }
    apply (farey_between n m); [done| |done].
    assert (n * p * xd < m * q * xd) by nia. nia.
  Qed.

  Lemma rest_mod n : (n * c) mod B = n * c - n * c / B * B.
  Proof using HB. rewrite Z.mod_eq by lia. lia. Qed.

  (** No multiple is an integer, and none looks like one. *)
  Lemma farey_never n amin : 0 < n <= N -> (amin - 1) * q < n ->
    p * xd < xn * q -> B <= (q * c - p * B) * amin * R ->
    (n * c) mod B * R < B <-> (xd | n * xn).
  Proof using Hxd HB Hq Hq' HR Hle Huni HN Hlow Hhigh.
    intros Hn Hmin Hstrict Hchk. split; [|intros H; by destruct (not_integer n)].
    destruct (farey_rest n Hn) as (a & b & Ha & Hb & Hna & Hma & Hr).
    intros H. exfalso. rewrite rest_mod, Hr in H.
    assert (Hpos' : 0 < p' * B - q' * c) by lia.
    pose proof (below_gap Hstrict) as Hpos.
    set (D := q * c - p * B) in *. set (D' := p' * B - q' * c) in *. clearbody D D'.
    assert (Hbd : 0 <= b * D') by nia.
    assert (HaD : a * D * R < B) by nia.
    assert (Haq : (amin - 1) * q < a * q) by nia.
    assert (amin - 1 < a) by (apply (Z.mul_lt_mono_pos_r q); lia).
    assert (D * amin * R <= a * D * R) by (apply Z.mul_le_mono_nonneg_r; nia). lia.
  Qed.

  (** No multiple is an integer, and one looks like one. *)
  Lemma farey_once n amin : 0 < n <= N -> (amin - 1) * q < n ->
    p * xd < xn * q -> N < (amin + 1) * q -> B <= (p' * B - q' * c) * R ->
    n <> amin * q ->
    (n * c) mod B * R < B <-> (xd | n * xn).
  Proof using Hxd HB Hq Hq' HR Hle Huni HN Hlow Hhigh.
    intros Hn Hmin Hstrict Hchk Hchk2 Hne. split; [|intros H; by destruct (not_integer n)].
    destruct (farey_rest n Hn) as (a & b & Ha & Hb & Hna & Hma & Hr).
    intros H. exfalso. rewrite rest_mod, Hr in H.
    assert (Hpos' : 0 < p' * B - q' * c) by lia.
    pose proof (below_gap Hstrict) as Hpos.
    set (D := q * c - p * B) in *. set (D' := p' * B - q' * c) in *. clearbody D D'.
    destruct (decide (b = 0)) as [->|Hb0].
    - assert (amin - 1 < a) by (apply (Z.mul_lt_mono_pos_r q); lia).
      assert (amin <> a) by (intros ->; lia).
      assert ((amin + 1) * q <= a * q) by (apply Z.mul_le_mono_nonneg_r; lia). lia.
    - assert (D' * R <= b * D' * R) by (apply Z.mul_le_mono_nonneg_r; nia).
      assert (0 < a * D * R) by (apply Z.mul_pos_pos; nia). nia.
  Qed.

  (** The fraction is [p/q] itself: the multiples that are integers look like it, and no others. *)
  Lemma farey_exact n : 0 < n <= N ->
    p * xd = xn * q -> N * (c * xd - xn * B) * R < B * xd -> B <= (p' * B - q' * c) * R ->
    (n * c) mod B * R < B <-> (xd | n * xn).
  Proof using Hxd HB Hq Hq' HR Hle Huni HN Hlow Hhigh.
    intros Hn Heq Hchk1 Hchk2.
    destruct (farey_rest n Hn) as (a & b & Ha & Hb & Hna & Hma & Hr).
    assert (Hge : 0 <= q * c - p * B).
    { assert (p * xd * B = xn * q * B) by (by rewrite Heq).
      assert (q * (xn * B) <= q * (c * xd)) by (apply Z.mul_le_mono_nonneg_l; lia).
      assert (xd * (p * B) <= xd * (q * c)) by lia.
      assert (p * B <= q * c) by (apply (Z.mul_le_mono_pos_l _ _ xd); lia). lia. }
    rewrite divides_iff, <- farey_floor, rest_mod by done.
    set (m := n * c / B) in *. split.
    - intros H. rewrite Hr in H.
      destruct (decide (b = 0)) as [->|Hne].
      + assert (Hnq : n = a * q) by lia. assert (Hmp : m = a * p) by lia.
        rewrite Hnq, Hmp. transitivity (a * (xn * q)); [ring|]. rewrite <- Heq. ring.
      + exfalso. set (D := q * c - p * B) in *. set (D' := p' * B - q' * c) in *.
        assert (0 < D') by (subst D'; lia). clearbody D D'.
        assert (D' * R <= b * D' * R) by (apply Z.mul_le_mono_nonneg_r; nia).
        assert (0 <= a * D * R) by (apply Z.mul_nonneg_nonneg; nia). nia.
    - intros H.
      assert (He : (n * c - m * B) * xd = n * (c * xd - xn * B)).
      { transitivity (n * c * xd - (m * xd) * B); [ring|]. rewrite <- H. ring. }
      set (D := c * xd - xn * B) in *. assert (0 <= D) by (subst D; lia). clearbody D.
      assert (n * D * R <= N * D * R) by (apply Z.mul_le_mono_nonneg_r; nia).
      set (Y := n * c - m * B) in *. clearbody Y. 
      assert (Y * R * xd < B * xd) by nia. apply (Z.mul_lt_mono_pos_r xd); lia.
  Qed.
End farey.
