(** The decision the shortest-decimal algorithm makes for a number with equally wide gaps on both sides, in integers.

    The unit is the power of ten the algorithm works with; [X = xn / xd] is half the gap. The number itself is
    [2 f X], its neighbourhood reaches from [(2f - 1) X] to [(2f + 1) X]. *)
From Verif Require Import Base.Cpp.
Set Default Proof Using "Type".
Local Open Scope Z_scope.

Section core.
  Context (f xn xd S : Z).
  Context (Hf : 1 <= f) (Hxn : 0 < xn) (Hxd : 0 < xd) (HS : 2 <= S) (Heven : S mod 2 = 0).

  Definition fl (n : Z) : Z := n * xn / xd.
  Definition within (m : Z) : Prop :=
    ((2 * f - 1) * xn < m * xd /\ m * xd < (2 * f + 1) * xn) \/
    (Z.Even f /\ (2 * f - 1) * xn <= m * xd /\ m * xd <= (2 * f + 1) * xn).
  Definition off (m : Z) : Z := Z.abs (m * xd - 2 * f * xn).
  Context (Hdelta : S <= fl 2 < 10 * S).

  Lemma fl_spec n : exists big_rem, n * xn = fl n * xd + big_rem /\ 0 <= big_rem < xd /\ (big_rem = 0 <-> (xd | n * xn)).
  Proof using Hxd.
    exists ((n * xn) mod xd). unfold fl. pose proof (Z.div_mod (n * xn) xd). pose proof (Z.mod_pos_bound (n * xn) xd).
    split; [lia|]. split; [lia|]. apply Z.mod_divide. lia.
  Qed.
  Lemma fl_unique n m big_rem : n * xn = m * xd + big_rem -> 0 <= big_rem < xd -> fl n = m.
  Proof using Hxd. intros H Hr. unfold fl. symmetry. apply (Z.div_unique_pos _ _ _ big_rem); lia. Qed.

  Lemma within_pos m : within m -> 0 < m.
  Proof using Hf Hxn Hxd.
    intros H. assert (0 < (2 * f - 1) * xn) by (apply Z.mul_pos_pos; lia).
    assert (0 < m * xd) by (destruct H as [[H _]|[_ [H _]]]; lia).
    apply (Z.mul_pos_cancel_r m xd); lia.
  Qed.

  (** The two kinds of candidates. *)
  Definition big_quot : Z := fl (2 * f + 1) / (10 * S).
  Definition big_rem : Z := fl (2 * f + 1) mod (10 * S).
  Definition bigcase : Prop :=
    (big_rem < fl 2 /\ ~ (big_rem = 0 /\ (xd | (2 * f + 1) * xn) /\ ~ Z.Even f)) \/
    (big_rem = fl 2 /\ (Z.odd (fl (2 * f - 1)) = true \/ ((xd | (2 * f - 1) * xn) /\ Z.Even f))).

  Lemma zi_split : fl (2 * f + 1) = big_quot * (10 * S) + big_rem /\ 0 <= big_rem < 10 * S.
  Proof using Hf Hxn Hxd HS Heven Hdelta.
    unfold big_quot, big_rem. pose proof (Z.div_mod (fl (2 * f + 1)) (10 * S)).
    pose proof (Z.mod_pos_bound (fl (2 * f + 1)) (10 * S)). lia.
  Qed.

  Lemma within_big : within (big_quot * (10 * S)) <-> bigcase.
  Proof using Hf Hxn Hxd HS Heven Hdelta.
    destruct zi_split as [Hz Hr].
    destruct (fl_spec (2 * f + 1)) as (rz & Hrz & Hrz1 & Hrz2).
    destruct (fl_spec 2) as (rd & Hrd & Hrd1 & _).
    destruct (fl_spec (2 * f - 1)) as (rx & Hrx & Hrx1 & Hrx2).
    unfold within, bigcase. rewrite <- Hrz2, <- Hrx2.
    set (zi := fl (2 * f + 1)) in *. set (d := fl 2) in *. set (xi := fl (2 * f - 1)) in *.
    set (U := big_quot * (10 * S)) in *. clearbody zi d xi. set (R := big_rem) in *. clearbody R.
    assert (HU : U * xd = (2 * f + 1) * xn - rz - R * xd) by (rewrite Hrz, Hz; ring).
    assert (Hx : (2 * f - 1) * xn = (2 * f + 1) * xn - d * xd - rd) by lia.
    assert (HUeven : Z.Even U).
    { exists (5 * S * big_quot). unfold U. ring. }
    destruct (Z.lt_trichotomy R d) as [Hlt|[Heq|Hgt]].
    - assert ((R + 1) * xd <= d * xd) by (apply Z.mul_le_mono_nonneg_r; lia).
      assert (0 <= R * xd) by (apply Z.mul_nonneg_nonneg; lia).
      split.
      + intros G0. left. split; [done|]. intros (HR0 & Hz0 & Hodd). rewrite HR0 in *.
        destruct G0 as [G0|[G0 _]]; [lia|done].
      + intros [[_ Hn]|[G0 _]]; [|lia].
        destruct (decide (R = 0)) as [HR0|HR0].
        * rewrite HR0 in *. destruct (decide (rz = 0)) as [Hz0|Hz0].
          -- right. destruct (Z.Even_or_Odd f) as [He|Ho]; [|].
             ++ split; [done|]. lia.
             ++ exfalso. apply Hn. split; [done|]. split; [done|]. intros He.
                eapply Z.Even_Odd_False; eauto.
          -- left. lia.
        * left. assert (1 * xd <= R * xd) by (apply Z.mul_le_mono_nonneg_r; lia). lia.
    - subst R. assert (1 * xd <= d * xd) by (apply Z.mul_le_mono_nonneg_r; lia).
      assert (HxU : (2 * f - 1) * xn = U * xd + (rz - rd)) by lia.
      assert (Hodd : Z.odd xi = true <-> rz < rd).
      { destruct (Z.lt_ge_cases rz rd) as [Hc|Hc].
        - assert (xi = U - 1) as ->.
          { apply (Zmult_reg_r _ _ xd); [lia|].
            assert ((xi - U) * xd < 1 * xd) by lia. assert (xi - U < 1) by (apply (Z.mul_lt_mono_pos_r xd); lia).
            assert (-2 * xd < (xi - U) * xd) by lia. assert (-2 < xi - U) by (apply (Z.mul_lt_mono_pos_r xd); lia).
            destruct (decide (xi - U = 0)) as [G0|G0].
            - exfalso. assert ((xi - U) * xd = 0) by (rewrite G0; lia). lia.
            - assert (xi = U - 1) as -> by lia. done. }
          split; [done|]. intros _. rewrite Z.odd_sub. apply Z.even_spec in HUeven.
          rewrite <- Z.negb_even, HUeven. done.
        - assert (xi = U) as ->.
          { assert ((xi - U) * xd < 1 * xd) by lia. assert (xi - U < 1) by (apply (Z.mul_lt_mono_pos_r xd); lia).
            assert (-1 * xd < (xi - U) * xd) by lia. assert (-1 < xi - U) by (apply (Z.mul_lt_mono_pos_r xd); lia).
            lia. }
          apply Z.even_spec in HUeven. rewrite <- Z.negb_even, HUeven. cbn. split; [done|lia]. }
      assert (Hint : rx = 0 -> rz = rd).
      { intros G0. assert (Hm : (xi - U) * xd = rz - rd) by lia.
        assert (xi - U < 1) by (apply (Z.mul_lt_mono_pos_r xd); lia).
        assert (-1 < xi - U) by (apply (Z.mul_lt_mono_pos_r xd); lia).
        assert (G1 : xi - U = 0) by lia. rewrite G1 in Hm. lia. }
      assert (Hint' : rz = rd -> rx = 0).
      { intros G0. assert (Hm : (xi - U) * xd = - rx) by lia.
        assert (xi - U < 1) by (apply (Z.mul_lt_mono_pos_r xd); lia).
        assert (-1 < xi - U) by (apply (Z.mul_lt_mono_pos_r xd); lia).
        assert (G1 : xi - U = 0) by lia. rewrite G1 in Hm. lia. }
      rewrite Hodd. split.
      + intros G0. right. split; [done|]. destruct G0 as [G0|(He & G0 & _)]; [left; lia|].
        destruct (decide (rz = rd)) as [G1|G1]; [right; auto|left; lia].
      + intros [[G0 _]|[_ [G0|[G0 He]]]]; [lia|left; lia|]. apply Hint in G0. right. split; [done|]. lia.
    - assert ((d + 1) * xd <= R * xd) by (apply Z.mul_le_mono_nonneg_r; lia). split.
      + intros G0. exfalso. destruct G0 as [G0|[_ G0]]; lia.
      + intros [[G0 _]|[G0 _]]; lia.
  Qed.

  Lemma within_only m : within (m * (10 * S)) -> m = big_quot.
  Proof using Hf Hxn Hxd HS Heven Hdelta.
    intros H. destruct zi_split as [Hz Hr].
    destruct (fl_spec (2 * f + 1)) as (rz & Hrz & Hrz1 & _).
    destruct (fl_spec 2) as (rd & Hrd & Hrd1 & _).
    assert (Hlo : (2 * f + 1) * xn - 2 * xn <= m * (10 * S) * xd) by (destruct H as [H|[_ H]]; lia).
    assert (Hhi : m * (10 * S) * xd <= (2 * f + 1) * xn) by (destruct H as [H|[_ H]]; lia).
    set (zi := fl (2 * f + 1)) in *. set (d := fl 2) in *. set (R := big_rem) in *. clearbody zi d R.
    assert (m * (10 * S) < zi + 1).
    { apply (Z.mul_lt_mono_pos_r xd); lia. }
    assert (Hm1 : m < big_quot + 1) by (apply (Z.mul_lt_mono_pos_r (10 * S)); lia).
    assert (zi - (10 * S) < m * (10 * S)).
    { apply (Z.mul_lt_mono_pos_r xd); [lia|].
      assert ((d + 1) * xd <= 10 * S * xd) by (apply Z.mul_le_mono_nonneg_r; lia). lia. }
    assert (big_quot - 1 < m) by (apply (Z.mul_lt_mono_pos_r (10 * S)); lia). lia.
  Qed.

  Lemma big_none m : ~ bigcase -> ~ within (m * (10 * S)).
  Proof using Hf Hxn Hxd HS Heven Hdelta.
    intros Hn H. pose proof (within_only m H) as ->. by apply within_big in H.
  Qed.

  (** Rounding the number to a multiple of [S]. [D', r'] is another way to split [fl (2 f + 1)]. *)
  Section small.
    Context (D' r' : Z) (Hsplit : fl (2 * f + 1) = D' * (10 * S) + r').
    Context (yint : bool) (Hyint : fl (2 * f) mod S = S / 2 -> yint = true <-> (xd | 2 * f * xn)).
    Definition sdist : Z := r' - fl 2 / 2 + S / 2.
    Definition squot : Z := D' * 10 + sdist / S.
    Definition rounded : Z :=
      if negb (sdist mod S =? 0) then squot
      else if negb (Bool.eqb (Z.odd (fl (2 * f))) (Z.odd (r' - fl 2 / 2))) then squot - 1
      else if yint && negb (squot mod 2 =? 0) then squot - 1
      else squot.

    Lemma rounded_near : 2 * off (rounded * S) <= S * xd.
    Proof using Hf Hxn Hxd HS Heven Hdelta Hsplit Hyint.
      destruct (fl_spec (2 * f + 1)) as (rz & Hrz & Hrz1 & _).
      destruct (fl_spec 2) as (rd & Hrd & Hrd1 & _).
      destruct (fl_spec (2 * f)) as (ry & Hry & Hry1 & Hry2).
      unfold off, rounded, squot, sdist.
      set (zi := fl (2 * f + 1)) in *. set (d := fl 2) in *. set (yi := fl (2 * f)) in *. clearbody zi d yi.
      set (Y := 2 * f * xn) in *.
      assert (HY : (2 * f + 1) * xn = Y + xn) by (unfold Y; ring). clearbody Y.
      set (h := d / 2). assert (Hd : d = 2 * h + d mod 2) by (subst h; pose proof (Z.div_mod d 2); lia).
      pose proof (Z.mod_pos_bound d 2 ltac:(lia)) as Hdm. set (b := d mod 2) in *.
      assert (HS2 : S = 2 * (S / 2)) by (pose proof (Z.div_mod S 2); lia). set (S2 := S / 2) in *.
      fold h. set (ds := r' - h + S2) in *.
      pose proof (Z.div_mod ds S ltac:(lia)) as Hds. pose proof (Z.mod_pos_bound ds S ltac:(lia)) as Hdsm.
      set (q := ds / S) in *. set (rem := ds mod S) in *. clearbody q rem.
      (* the approximation yh of the number *)
      set (yh := zi - h).
      assert (HYh : 2 * Y = 2 * yh * xd + (2 * rz - b * xd - rd)).
      { subst yh. rewrite Hd in Hrd. lia. }
      assert (Hb : 0 <= b * xd <= xd) by (assert (b = 0 \/ b = 1) as [-> | ->] by lia; lia).
      assert (Hlo : (yh - 1) * xd < Y) by lia.
      assert (Hhi : Y < (yh + 1) * xd) by lia.
      assert (Hyi : yi = yh - 1 \/ yi = yh).
      { assert (yi < yh + 1) by (apply (Z.mul_lt_mono_pos_r xd); lia).
        assert (yh - 2 < yi) by (apply (Z.mul_lt_mono_pos_r xd); lia). lia. }
      assert (Hpar : Z.odd (r' - h) = Z.odd yh).
      { subst yh. rewrite Hsplit. replace (D' * (10 * S) + r' - h) with (r' - h + 2 * (5 * S * D')) by ring.
        by rewrite Z.odd_add_mul_2. }
      rewrite Hpar.
      assert (Hs0 : (D' * 10 + q) * S = yh + S2 - rem).
      { subst yh ds. lia. }
      assert (Hs0x : (D' * 10 + q) * S * xd = (yh + S2 - rem) * xd) by (by rewrite Hs0).
      assert (Hs1x : (D' * 10 + q - 1) * S * xd = (yh - S2 - rem) * xd).
      { replace ((D' * 10 + q - 1) * S) with ((D' * 10 + q) * S - S) by ring. rewrite Hs0. f_equal. lia. }
      assert (HSx : S * xd = 2 * (S2 * xd)) by (rewrite HS2 at 1; ring).
      assert (1 * xd <= S2 * xd) by (apply Z.mul_le_mono_nonneg_r; lia).
      destruct (rem =? 0) eqn:Erem; cbn [negb].
      - apply Z.eqb_eq in Erem. rewrite Erem in *.
        destruct Hyi as [-> | ->].
        + replace (Bool.eqb (Z.odd (yh - 1)) (Z.odd yh)) with false.
          2: { rewrite Z.odd_sub. by destruct (Z.odd yh). }
          cbn [negb]. lia.
        + rewrite Bool.eqb_reflx. cbn [negb].
          destruct yint; cbn [andb].
          * assert (ry = 0).
            { apply Hry2, Hyint; [|done]. symmetry. apply (Z.mod_unique_pos _ _ (D' * 10 + q - 1)); lia. }
            destruct (negb _); lia.
          * lia.
      - apply Z.eqb_neq in Erem.
        assert (1 * xd <= rem * xd) by (apply Z.mul_le_mono_nonneg_r; lia).
        assert (rem * xd <= (2 * S2 - 1) * xd) by (apply Z.mul_le_mono_nonneg_r; lia).
        lia.
    Qed.
  End small.

  Lemma near_closest s m : 2 * off (s * S) <= S * xd -> off (s * S) <= off (m * S).
  Proof using Hf Hxn Hxd HS Heven Hdelta.
    unfold off. set (Y := 2 * f * xn). intros H. destruct (decide (m = s)) as [->|Hne]; [done|].
    assert (0 < S * xd) by (apply Z.mul_pos_pos; lia).
    set (P := S * xd) in *. replace (s * S * xd) with (s * P) in * by (subst P; ring).
    replace (m * S * xd) with (m * P) by (subst P; ring). clearbody P Y.
    destruct (Z.lt_total m s) as [Hlt|[|Hgt]]; [|done|].
    - assert ((m + 1) * P <= s * P) by (apply Z.mul_le_mono_nonneg_r; lia). lia.
    - assert ((s + 1) * P <= m * P) by (apply Z.mul_le_mono_nonneg_r; lia). lia.
  Qed.

  Lemma near_within s : 2 * off (s * S) <= S * xd -> within (s * S).
  Proof using Hf Hxn Hxd HS Heven Hdelta.
    unfold off, within. intros H. destruct (fl_spec 2) as (rd & Hrd & Hrd1 & _).
    assert (S * xd <= fl 2 * xd) by (apply Z.mul_le_mono_nonneg_r; lia).
    set (d := fl 2) in *. clearbody d.
    assert (Hle : Z.abs (s * S * xd - 2 * f * xn) <= xn) by lia.
    destruct (decide (Z.abs (s * S * xd - 2 * f * xn) = xn)) as [He|Hne]; [exfalso|left; lia].
    assert (Hx : S * xd = 2 * xn) by lia.
    assert (HY : s * S * xd - 2 * f * xn = (s - f) * (2 * xn)).
    { replace (s * S * xd) with (s * (S * xd)) by ring. rewrite Hx. ring. }
    rewrite HY in He. rewrite Z.abs_mul, (Z.abs_eq (2 * xn)) in He by lia.
    destruct (decide (s = f)) as [->|Hsf]; [rewrite Z.sub_diag in He; cbn in He; lia|].
    assert (1 * (2 * xn) <= Z.abs (s - f) * (2 * xn)) by (apply Z.mul_le_mono_nonneg_r; lia). lia.
  Qed.

  Lemma within_upper m : within m -> m <= fl (2 * f + 1).
  Proof using Hf Hxn Hxd HS Heven Hdelta.
    intros H. destruct (fl_spec (2 * f + 1)) as (rz & Hrz & Hrz1 & _).
    assert (m < fl (2 * f + 1) + 1); [|lia]. apply (Z.mul_lt_mono_pos_r xd); [lia|].
    destruct H as [H|[_ H]]; lia.
  Qed.
End core.
