(** Facts about binary numbers and the decimals that are read as them. *)
From Coq Require Import ZArith QArith Qpower Qabs Lqa.
From Verif Require Import Base.Cpp Spec.FloatSpec.
Set Default Proof Using "Type".
Local Open Scope Z_scope.

Notation p2 b := (Qpower (inject_Z 2) b).
Notation p10 b := (Qpower (inject_Z 10) b).

Lemma p2_pos b : (0 < p2 b)%Q.
Proof. apply Qpower_0_lt. done. Qed.
Lemma p10_pos b : (0 < p10 b)%Q.
Proof. apply Qpower_0_lt. done. Qed.
Lemma p2_add a b : (p2 (a + b) == p2 a * p2 b)%Q.
Proof. apply Qpower_plus. done. Qed.
Lemma p10_add a b : (p10 (a + b) == p10 a * p10 b)%Q.
Proof. apply Qpower_plus. done. Qed.
Lemma p2_Z n : 0 <= n -> (p2 n == inject_Z (2 ^ n))%Q.
Proof. intros H. rewrite Zpower_Qpower by done. reflexivity. Qed.
Lemma p10_Z n : 0 <= n -> (p10 n == inject_Z (10 ^ n))%Q.
Proof. intros H. rewrite Zpower_Qpower by done. reflexivity. Qed.

(** Equations between multiples of a rational by integers. *)
Ltac qring :=
  unfold Z.sub; rewrite ?inject_Z_plus, ?inject_Z_opp, ?inject_Z_mult;
  change (inject_Z 4) with (4#1)%Q; change (inject_Z 2) with (2#1)%Q; change (inject_Z 1) with (1#1)%Q;
  change (inject_Z (-2)) with (-2#1)%Q; change (inject_Z (-1)) with (-1#1)%Q; ring.

Section format.
  Context (F : format) (Hprec : 2 <= prec F) (He : emin F <= emax F).
  Implicit Types x y : number F.
  Local Notation half := (2 ^ (prec F - 1)).

  Lemma half_double : 2 ^ prec F = 2 * half.
  Proof using Hprec. replace (prec F) with (1 + (prec F - 1)) at 1 by lia. rewrite Z.pow_add_r by lia. lia. Qed.
  Lemma half_even : Z.Even half.
  Proof using Hprec.
    exists (2 ^ (prec F - 2)). replace (prec F - 1) with (1 + (prec F - 2)) by lia.
    rewrite Z.pow_add_r by lia. lia.
  Qed.

  (** The ends of the interval of the reals that are read as [x], in quarters of a unit. *)
  Definition low4 x : Z :=
    if decide (significand x = half /\ emin F < exponent x) then 4 * significand x - 1 else 4 * significand x - 2.
  Definition high4 x : Z := 4 * significand x + 2.
  Local Notation quarter x := (p2 (exponent x - 2)).
  Definition inside x (d : Q) : Prop :=
    (inject_Z (low4 x) * quarter x < d /\ d < inject_Z (high4 x) * quarter x)%Q \/
    (Z.Even (significand x) /\
     (inject_Z (low4 x) * quarter x <= d /\ d <= inject_Z (high4 x) * quarter x))%Q.

  Lemma value_quarter x : (value x == inject_Z (4 * significand x) * quarter x)%Q.
  Proof.
    unfold value. replace (exponent x) with (2 + (exponent x - 2)) at 1 by lia. rewrite p2_add.
    rewrite inject_Z_mult. change (p2 2) with (4#1)%Q. change (inject_Z 4) with (4#1)%Q. ring.
  Qed.

  (** The value of any number in terms of the quarters of another with at least as small an exponent. *)
  Lemma value_shift x y : exponent x <= exponent y ->
    (value y == inject_Z (4 * significand y * 2 ^ (exponent y - exponent x)) * quarter x)%Q.
  Proof.
    intros H. rewrite value_quarter.
    replace (exponent y - 2) with ((exponent y - exponent x) + (exponent x - 2)) by lia.
    rewrite p2_add, p2_Z by lia. rewrite !inject_Z_mult. ring.
  Qed.

  (** Two numbers of the format are one apart at least. *)
  Lemma apart x y : valid x -> valid y -> 0 < significand x -> y <> x ->
    (inject_Z (4 * significand x + 4) * quarter x <= value y)%Q \/
    (value y <= inject_Z (2 * low4 x - 4 * significand x) * quarter x)%Q.
  Proof using Hprec.
    intros (Hf & Hex & Hn) (Hg & Hey & Hny) Hpos Hne.
    pose proof half_double as Hhalf.
    destruct (Z.lt_trichotomy (exponent y) (exponent x)) as [H|[H|H]].
    - right. rewrite value_quarter.
      assert (Hq : (quarter x == inject_Z (2 ^ (exponent x - exponent y)) * quarter y)%Q).
      { replace (exponent x - 2) with ((exponent x - exponent y) + (exponent y - 2)) by lia.
        by rewrite p2_add, p2_Z by lia. }
      rewrite Hq, Qmult_assoc, <- inject_Z_mult.
      apply Qmult_le_compat_r; [|apply Qlt_le_weak, p2_pos].
      rewrite <- Zle_Qle.
      assert (Hfx : half <= significand x) by lia.
      replace (exponent x - exponent y) with (1 + (exponent x - exponent y - 1)) by lia.
      rewrite Z.pow_add_r by lia.
      assert (1 <= 2 ^ (exponent x - exponent y - 1)) by (apply Z.lt_pred_le, Z.pow_pos_nonneg; lia).
      unfold low4. destruct (decide _) as [[Hh _]|Hh]; [nia|].
      assert (significand x <> half) by (intros ?; apply Hh; lia). nia.
    - assert (Hfg : significand y <> significand x).
      { intros ?. apply Hne. destruct x, y; cbn in *; congruence. }
      rewrite value_quarter, H.
      destruct (Z.lt_ge_cases (significand x) (significand y)) as [H'|H'].
      + left. apply Qmult_le_compat_r; [|apply Qlt_le_weak, p2_pos]. rewrite <- Zle_Qle. lia.
      + right. apply Qmult_le_compat_r; [|apply Qlt_le_weak, p2_pos]. rewrite <- Zle_Qle.
        unfold low4. destruct (decide _) as [[Hh ?]|Hh]; lia.
    - left. rewrite (value_shift x y) by lia.
      apply Qmult_le_compat_r; [|apply Qlt_le_weak, p2_pos]. rewrite <- Zle_Qle.
      assert (Hgy : half <= significand y) by lia.
      replace (exponent y - exponent x) with (1 + (exponent y - exponent x - 1)) by lia.
      rewrite Z.pow_add_r by lia.
      assert (1 <= 2 ^ (exponent y - exponent x - 1)) by (apply Z.lt_pred_le, Z.pow_pos_nonneg; lia). nia.
  Qed.

  (** The neighbours. *)
  Lemma succ_number x : valid x -> 0 < significand x ->
    (exponent x = emax F /\ significand x = 2 ^ prec F - 1) \/
    exists y, valid y /\ y <> x /\ (value y == inject_Z (4 * significand x + 4) * quarter x)%Q.
  Proof using Hprec.
    intros (Hf & Hex & Hn) Hpos. pose proof half_double as Hhalf.
    destruct (decide (significand x + 1 < 2 ^ prec F)) as [H|H].
    - right. exists (Number (significand x + 1) (exponent x)). split; [|split].
      + unfold valid; cbn. lia.
      + intros Heq. apply (f_equal significand) in Heq. cbn in Heq. lia.
      + rewrite value_quarter. cbn. by replace (4 * (significand x + 1)) with (4 * significand x + 4) by lia.
    - destruct (decide (exponent x = emax F)) as [He'|He']; [left; lia|]. right.
      exists (Number half (exponent x + 1)). split; [|split].
      + unfold valid; cbn. lia.
      + intros Heq. apply (f_equal exponent) in Heq. cbn in Heq. lia.
      + rewrite (value_shift x) by (cbn; lia). cbn [significand exponent].
        replace (4 * half * 2 ^ (exponent x + 1 - exponent x)) with (4 * significand x + 4); [done|].
        replace (exponent x + 1 - exponent x) with 1 by lia. lia.
  Qed.
  Lemma pred_number x : valid x -> 0 < significand x ->
    exists y, valid y /\ y <> x /\ (value y == inject_Z (2 * low4 x - 4 * significand x) * quarter x)%Q.
  Proof using Hprec.
    intros (Hf & Hex & Hn) Hpos. pose proof half_double as Hhalf.
    unfold low4. destruct (decide _) as [[Hh Hlt]|Hh].
    - exists (Number (2 ^ prec F - 1) (exponent x - 1)). split; [|split].
      + unfold valid; cbn. lia.
      + intros Heq. apply (f_equal exponent) in Heq. cbn in Heq. lia.
      + rewrite value_quarter. cbn [significand exponent].
        replace (exponent x - 2) with (1 + (exponent x - 1 - 2)) by lia. rewrite p2_add.
        change (p2 1) with (2#1)%Q. rewrite Qmult_assoc.
        replace (4 * (2 ^ prec F - 1)) with ((2 * (4 * significand x - 1) - 4 * significand x) * 2) by lia.
        rewrite inject_Z_mult. reflexivity.
    - exists (Number (significand x - 1) (exponent x)). split; [|split].
      + unfold valid; cbn. lia.
      + intros Heq. apply (f_equal significand) in Heq. cbn in Heq. lia.
      + rewrite value_quarter. cbn.
        by replace (4 * (significand x - 1)) with (2 * (4 * significand x - 2) - 4 * significand x) by lia.
  Qed.

  Lemma odd_top x : significand x = 2 ^ prec F - 1 -> ~ Z.Even (significand x).
  Proof using Hprec. intros -> [k Hk]. rewrite half_double in Hk. lia. Qed.

  (** The largest number ends where infinity begins. *)
  Lemma top_quarter x : exponent x = emax F -> significand x = 2 ^ prec F - 1 ->
    (inject_Z (2 ^ (prec F + 1) - 1) * p2 (emax F - 1) == inject_Z (high4 x) * quarter x)%Q.
  Proof using Hprec.
    intros Hex Hf. unfold high4. rewrite Hex, Hf.
    replace (emax F - 1) with (1 + (emax F - 2)) by lia. rewrite p2_add.
    change (p2 1) with (inject_Z 2). rewrite Qmult_assoc, <- inject_Z_mult.
    replace (2 ^ (prec F + 1)) with (2 * 2 ^ prec F) by (rewrite Z.pow_add_r by lia; lia).
    replace ((2 * 2 ^ prec F - 1) * 2) with (4 * (2 ^ prec F - 1) + 2) by lia. reflexivity.
  Qed.
  Lemma below_infinity x : valid x ->
    (inject_Z (high4 x) * quarter x <= inject_Z (2 ^ (prec F + 1) - 1) * p2 (emax F - 1))%Q /\
    ((inject_Z (high4 x) * quarter x == inject_Z (2 ^ (prec F + 1) - 1) * p2 (emax F - 1))%Q ->
     ~ Z.Even (significand x)).
  Proof using Hprec.
    intros (Hf & Hex & Hn).
    assert (Hq : (inject_Z (2 ^ (prec F + 1) - 1) * p2 (emax F - 1) ==
                  inject_Z ((4 * 2 ^ prec F - 2) * 2 ^ (emax F - exponent x)) * quarter x)%Q).
    { replace (emax F - 1) with (1 + (emax F - exponent x) + (exponent x - 2)) by lia.
      rewrite p2_add, p2_add, (p2_Z (emax F - exponent x)) by lia.
      change (p2 1) with (inject_Z 2).
      replace (2 ^ (prec F + 1)) with (2 * 2 ^ prec F) by (rewrite Z.pow_add_r by lia; lia).
      replace (4 * 2 ^ prec F - 2) with ((2 * 2 ^ prec F - 1) * 2) by lia.
      rewrite !inject_Z_mult. ring. }
    rewrite Hq. unfold high4.
    assert (1 <= 2 ^ (emax F - exponent x)) by (apply Z.lt_pred_le, Z.pow_pos_nonneg; lia).
    split.
    - apply Qmult_le_compat_r; [|apply Qlt_le_weak, p2_pos]. rewrite <- Zle_Qle. nia.
    - intros Heq. apply odd_top.
      assert (Heq' : 4 * significand x + 2 = (4 * 2 ^ prec F - 2) * 2 ^ (emax F - exponent x)).
      { apply inject_Z_injective.
        apply Qmult_inj_r in Heq; [done|]. pose proof (p2_pos (exponent x - 2)). lra. }
      nia.
  Qed.

  Lemma low4_bounds x : 4 * significand x - 2 <= low4 x <= 4 * significand x - 1.
  Proof. unfold low4. destruct (decide _); lia. Qed.

  Lemma reads_inside x d : valid x -> 0 < significand x -> reads_as d x <-> inside x d.
  Proof using Hprec.
    intros Hv Hpos.
    pose proof (p2_pos (exponent x - 2)) as HP. set (P := quarter x) in *.
    pose proof (low4_bounds x) as Hlb.
    assert (Hfl : (inject_Z (2 * low4 x - 4 * significand x) * P ==
                   2 * (inject_Z (low4 x) * P) - 4 * (inject_Z (significand x) * P))%Q).
    { qring. }
    assert (Hfh : (inject_Z (4 * significand x + 4) * P == 4 * (inject_Z (significand x) * P) + 4 * P)%Q).
    { qring. }
    assert (Hhh : (inject_Z (high4 x) * P == 4 * (inject_Z (significand x) * P) + 2 * P)%Q).
    { unfold high4. qring. }
    assert (Hvx : (value x == 4 * (inject_Z (significand x) * P))%Q).
    { rewrite value_quarter. fold P. qring. }
    assert (Hll : (4 * (inject_Z (significand x) * P) - 2 * P <= inject_Z (low4 x) * P)%Q).
    { setoid_replace (4 * (inject_Z (significand x) * P) - 2 * P)%Q with (inject_Z (4 * significand x - 2) * P)%Q.
      2: { qring. }
      apply Qmult_le_compat_r; [rewrite <- Zle_Qle; lia|lra]. }
    assert (Hlu : (inject_Z (low4 x) * P <= 4 * (inject_Z (significand x) * P) - P)%Q).
    { setoid_replace (4 * (inject_Z (significand x) * P) - P)%Q with (inject_Z (4 * significand x - 1) * P)%Q.
      2: { qring. }
      apply Qmult_le_compat_r; [rewrite <- Zle_Qle; lia|lra]. }
    split.
    - intros [Hinf Hnear].
      assert (Hlow : (inject_Z (low4 x) * P < d)%Q \/
                     (inject_Z (low4 x) * P <= d)%Q /\ Z.Even (significand x)).
      { destruct (pred_number x Hv Hpos) as (y & Hy & Hne & Hvy). fold P in Hvy. rewrite Hfl in Hvy.
        destruct (Hnear y Hy Hne) as [H|[H Hev]].
        - left. revert H. apply Qabs_case; intros H1; apply Qabs_case; intros H2 H; lra.
        - right. split; [|done]. revert H. apply Qabs_case; intros H1; apply Qabs_case; intros H2 H; lra. }
      assert (Hhigh : (d < inject_Z (high4 x) * P)%Q \/
                      (d <= inject_Z (high4 x) * P)%Q /\ Z.Even (significand x)).
      { destruct (succ_number x Hv Hpos) as [[Htop Hf]|(y & Hy & Hne & Hvy)].
        - left. rewrite (top_quarter x) in Hinf by done. done.
        - fold P in Hvy. rewrite Hfh in Hvy. destruct (Hnear y Hy Hne) as [H|[H Hev]].
          + left. revert H. apply Qabs_case; intros H1; apply Qabs_case; intros H2 H; lra.
          + right. split; [|done]. revert H. apply Qabs_case; intros H1; apply Qabs_case; intros H2 H; lra. }
      unfold inside. fold P. destruct Hlow as [Hlow|[Hlow Hev]], Hhigh as [Hhigh|[Hhigh Hev']]; auto.
      + right. split; [done|]. split; [lra|done].
      + right. split; [done|]. split; [done|lra].
    - intros Hin. split.
      + destruct (below_infinity x Hv) as [Hb Hb']. fold P in Hb, Hb'.
        destruct Hin as [[_ H]|[Hev [_ H]]]; fold P in H; [lra|].
        destruct (Qlt_le_dec d (inject_Z (2 ^ (prec F + 1) - 1) * p2 (emax F - 1))) as [|Hge]; [done|].
        exfalso. apply Hb'; [lra|done].
      + intros y Hy Hne. unfold inside in Hin. fold P in Hin.
        destruct (apart x y Hv Hy Hpos Hne) as [H|H]; fold P in H; [rewrite Hfh in H|rewrite Hfl in H];
          destruct Hin as [[H1 H2]|[Hev [H1 H2]]].
        * left. apply Qabs_case; intros H3; apply Qabs_case; intros H4; lra.
        * destruct (Qlt_le_dec (Qabs (d - value x)) (Qabs (d - value y))) as [|Hge]; [by left|right].
          split; [|done]. apply Qle_antisym; [|done].
          apply Qabs_case; intros H3; apply Qabs_case; intros H4; lra.
        * left. apply Qabs_case; intros H3; apply Qabs_case; intros H4; lra.
        * destruct (Qlt_le_dec (Qabs (d - value x)) (Qabs (d - value y))) as [|Hge]; [by left|right].
          split; [|done]. apply Qle_antisym; [|done].
          apply Qabs_case; intros H3; apply Qabs_case; intros H4; lra.
  Qed.

  (** Between two reals that are read as [x], all are. *)

  (** A real is read as one number only. *)
  Lemma reads_twice x y d : valid x -> valid y -> 0 < significand x -> 0 < significand y -> y <> x ->
    (inject_Z (4 * significand x + 4) * quarter x <= value y)%Q -> reads_as d x -> reads_as d y -> False.
  Proof using Hprec.
    intros Hx Hy Hpx Hpy Hne Hle [_ Hrx] [_ Hry]. pose proof (p2_pos (exponent x - 2)) as HP.
    assert (Heq : (Qabs (d - value x) == Qabs (d - value y))%Q /\ Z.Even (significand x) /\ Z.Even (significand y)).
    { destruct (Hrx y Hy Hne) as [H1|[H1 E1]], (Hry x Hx (not_eq_sym Hne)) as [H2|[H2 E2]]; try lra. done. }
    destruct Heq as (Heq & Ex & Ey).
    assert (Hz : valid (Number (significand x + 1) (exponent x) : number F)).
    { destruct Hx as (Hf & Hex & Hn). unfold valid. cbn [significand exponent].
      pose proof half_double. destruct Ex as [k Hk]. lia. }
    set (z := Number (significand x + 1) (exponent x) : number F) in *.
    assert (Hvz : (value z == inject_Z (4 * significand x + 4) * quarter x)%Q).
    { rewrite value_quarter. unfold z. cbn [significand exponent]. replace (4 * (significand x + 1)) with (4 * significand x + 4) by lia. reflexivity. }
    assert (Hvx : (value x == inject_Z (4 * significand x) * quarter x)%Q) by apply value_quarter.
    assert (Hxz : (value x < value z)%Q).
    { rewrite Hvz, Hvx. apply Qmult_lt_r; [done|]. rewrite <- Zlt_Qlt. lia. }
    rewrite <- Hvz in Hle.
    assert (Hzx : z <> x) by (intros H; rewrite H in Hxz; lra).
    assert (Hyz : y <> z).
    { intros ->. unfold z in Ey. cbn in Ey. destruct Ex as [a Ha], Ey as [b Hb]. lia. }
    assert (Hlt : (value z < value y)%Q).
    { destruct (apart z y Hz Hy) as [H|H]; [unfold z; cbn; lia|done| |].
      - eapply Qlt_le_trans; [|exact H]. rewrite (value_quarter z). apply Qmult_lt_r; [done|].
        rewrite <- Zlt_Qlt. lia.
      - exfalso. assert (Hlow : (inject_Z (2 * low4 z - 4 * significand z) * quarter z < value z)%Q).
        { rewrite value_quarter. apply Qmult_lt_r; [done|]. rewrite <- Zlt_Qlt. pose proof (low4_bounds z). lia. }
        lra. }
    destruct (Hrx z Hz Hzx) as [H1|[H1 _]]; destruct (Hry z Hz (not_eq_sym Hyz)) as [H2|[H2 _]]; revert Heq H1 H2;
      apply Qabs_case; intros A1; apply Qabs_case; intros A2; apply Qabs_case; intros A3; lra.
  Qed.
  Lemma reads_unique x y d : valid x -> valid y -> 0 < significand x -> 0 < significand y ->
    reads_as d x -> reads_as d y -> x = y.
  Proof using Hprec.
    intros Hx Hy Hpx Hpy Hrx Hry.
    destruct (decide (significand y = significand x /\ exponent y = exponent x)) as [[H1 H2]|Hne].
    { destruct x, y. cbn in *. by subst. }
    exfalso. assert (Hne' : y <> x) by (intros ->; tauto).
    destruct (apart x y Hx Hy Hpx Hne') as [H|H]; [by eapply (reads_twice x y)|].
    destruct (apart y x Hy Hx Hpy (not_eq_sym Hne')) as [H'|H']; [by eapply (reads_twice y x)|].
    assert (Hlow : forall w : number F, 
      (inject_Z (2 * low4 w - 4 * significand w) * quarter w < value w)%Q).
    { intros w. rewrite value_quarter. apply Qmult_lt_r; [apply p2_pos|]. rewrite <- Zlt_Qlt.
      pose proof (low4_bounds w). lia. }
    pose proof (Hlow x). pose proof (Hlow y). lra.
  Qed.

  Lemma inside_convex x a b d : (a <= d)%Q -> (d <= b)%Q -> inside x a -> inside x b -> inside x d.
  Proof.
    intros Ha Hb [[H1 H2]|[He1 [H1 H2]]] [[H3 H4]|[He2 [H3 H4]]]; unfold inside.
    - left. lra.
    - right. split; [done|]. lra.
    - right. split; [done|]. lra.
    - right. split; [done|]. lra.
  Qed.

  (** The same in integers. The unit is [10^mk], and a quarter of the unit of [x] is [num / den] of it. *)
  Section scaled.
    Context (x : number F) (Hv : valid x) (Hpos : 0 < significand x).
    Context (mk num den : Z) (Hnum : 0 < num) (Hden : 0 < den).
    Context (Hscale : (inject_Z num * p10 mk == inject_Z den * quarter x)%Q).

    Definition zin (m : Z) : Prop :=
      (low4 x * num < m * den /\ m * den < high4 x * num) \/
      (Z.Even (significand x) /\ low4 x * num <= m * den /\ m * den <= high4 x * num).

    Lemma decimal_unit m t : 0 <= t -> (decimal m (mk + t) == inject_Z (m * 10 ^ t) * p10 mk)%Q.
    Proof. intros H. unfold decimal. rewrite p10_add, (p10_Z t), inject_Z_mult by done. ring. Qed.

    Lemma quarter_unit n :
      (inject_Z den * (inject_Z n * quarter x) == inject_Z (n * num) * p10 mk)%Q.
    Proof using Hscale.
      rewrite inject_Z_mult.
      setoid_replace (inject_Z den * (inject_Z n * quarter x))%Q
        with (inject_Z n * (inject_Z den * quarter x))%Q by ring.
      rewrite <- Hscale. ring.
    Qed.
    Lemma unit_unit m : (inject_Z den * (inject_Z m * p10 mk) == inject_Z (m * den) * p10 mk)%Q.
    Proof. rewrite inject_Z_mult. ring. Qed.

    Lemma lt_unit a b : (a * p10 mk < b * p10 mk)%Q <-> (a < b)%Q.
    Proof. apply Qmult_lt_r, p10_pos. Qed.
    Lemma le_unit a b : (a * p10 mk <= b * p10 mk)%Q <-> (a <= b)%Q.
    Proof. apply Qmult_le_r, p10_pos. Qed.
    Lemma Qden : (0 < inject_Z den)%Q.
    Proof using Hden. change 0%Q with (inject_Z 0). by rewrite <- Zlt_Qlt. Qed.

    Lemma quarter_lt n m : (inject_Z n * quarter x < inject_Z m * p10 mk)%Q <-> n * num < m * den.
    Proof using Hscale Hden.
      rewrite <- (Qmult_lt_l _ _ (inject_Z den)) by apply Qden.
      rewrite quarter_unit, unit_unit, lt_unit. by rewrite <- Zlt_Qlt.
    Qed.
    Lemma lt_quarter n m : (inject_Z m * p10 mk < inject_Z n * quarter x)%Q <-> m * den < n * num.
    Proof using Hscale Hden.
      rewrite <- (Qmult_lt_l _ _ (inject_Z den)) by apply Qden.
      rewrite quarter_unit, unit_unit, lt_unit. by rewrite <- Zlt_Qlt.
    Qed.
    Lemma quarter_le n m : (inject_Z n * quarter x <= inject_Z m * p10 mk)%Q <-> n * num <= m * den.
    Proof using Hscale Hden.
      rewrite <- (Qmult_le_l _ _ (inject_Z den)) by apply Qden.
      rewrite quarter_unit, unit_unit, le_unit. by rewrite <- Zle_Qle.
    Qed.
    Lemma le_quarter n m : (inject_Z m * p10 mk <= inject_Z n * quarter x)%Q <-> m * den <= n * num.
    Proof using Hscale Hden.
      rewrite <- (Qmult_le_l _ _ (inject_Z den)) by apply Qden.
      rewrite quarter_unit, unit_unit, le_unit. by rewrite <- Zle_Qle.
    Qed.

    Global Instance inside_proper : Proper (Qeq ==> iff) (inside x).
    Proof. intros a b Hab. unfold inside. by rewrite Hab. Qed.

    Lemma inside_unit m : inside x (inject_Z m * p10 mk) <-> zin m.
    Proof using Hscale Hden. unfold inside, zin. by rewrite quarter_lt, lt_quarter, quarter_le, le_quarter. Qed.
    Lemma inside_zin m t : 0 <= t -> inside x (decimal m (mk + t)) <-> zin (m * 10 ^ t).
    Proof using Hscale Hden. intros H. by rewrite decimal_unit, inside_unit by done. Qed.

    Definition zdist (m : Z) : Z := Z.abs (m * den - 4 * significand x * num).
    Lemma dist_unit m :
      (inject_Z den * Qabs (inject_Z m * p10 mk - value x) == inject_Z (zdist m) * p10 mk)%Q.
    Proof using Hscale Hden.
      pose proof Qden as Hd. pose proof (p10_pos mk) as Hp.
      rewrite <- (Qabs_pos (inject_Z den)) by lra. rewrite <- Qabs_Qmult.
      setoid_replace (inject_Z den * (inject_Z m * p10 mk - value x))%Q
        with (inject_Z (m * den - 4 * significand x * num) * p10 mk)%Q.
      2: { rewrite value_quarter.
           setoid_replace (inject_Z den * (inject_Z m * p10 mk - inject_Z (4 * significand x) * quarter x))%Q
             with (inject_Z den * (inject_Z m * p10 mk) - inject_Z den * (inject_Z (4 * significand x) * quarter x))%Q
             by ring.
           rewrite quarter_unit, unit_unit. unfold Z.sub. rewrite inject_Z_plus, inject_Z_opp. ring. }
      rewrite Qabs_Qmult, (Qabs_pos (p10 mk)) by lra. reflexivity.
    Qed.
    Lemma dist_le m m' :
      (Qabs (inject_Z m * p10 mk - value x) <= Qabs (inject_Z m' * p10 mk - value x))%Q <-> zdist m <= zdist m'.
    Proof using Hscale Hden.
      rewrite <- (Qmult_le_l _ _ (inject_Z den)) by apply Qden.
      rewrite !dist_unit, le_unit. by rewrite <- Zle_Qle.
    Qed.

    Lemma digits_exist s : 0 < s -> exists d, 0 <= d /\ 10 ^ d <= s < 10 ^ (d + 1).
    Proof.
      intros Hs. assert (0 <= s) as H0 by lia. revert s H0 Hs.
      apply (Z_lt_induction (fun s => 0 < s -> exists d, 0 <= d /\ 10 ^ d <= s < 10 ^ (d + 1))).
      intros s IH Hs. destruct (Z.lt_ge_cases s 10) as [H|H].
      - exists 0. change (10 ^ 0) with 1. change (10 ^ (0 + 1)) with 10. lia.
      - assert (Hd : 0 < s / 10) by (apply Z.div_str_pos; lia).
        destruct (IH (s / 10)) as (d & Hd0 & Hd1).
        { split; [lia|]. apply Z.div_lt; lia. } { done. }
        exists (d + 1). split; [lia|]. rewrite !Z.pow_add_r in * by lia. change (10 ^ 1) with 10 in *.
        pose proof (Z.div_mod s 10). pose proof (Z.mod_pos_bound s 10). lia.
    Qed.

    Lemma decimal_le a b i j : 0 <= a -> i <= j -> a <= b * 10 ^ (j - i) -> (decimal a i <= decimal b j)%Q.
    Proof.
      intros Ha Hij Hle. unfold decimal. replace j with ((j - i) + i) at 1 by lia.
      rewrite p10_add, (p10_Z (j - i)) by lia. rewrite Qmult_assoc, <- inject_Z_mult.
      apply Qmult_le_compat_r; [by rewrite <- Zle_Qle|apply Qlt_le_weak, p10_pos].
    Qed.

    Lemma shortest_scaled s t :
      0 < s -> 0 <= t ->
      zin (s * 10 ^ t) ->
      (forall m, ~ zin (m * 10 ^ (t + 1))) ->
      (forall m, zin (m * 10 ^ t) -> zdist (s * 10 ^ t) <= zdist (m * 10 ^ t)) ->
      10 <= significand x \/
        (1 <= t /\ forall c, 1 <= c <= 9 -> zin (c * 10 ^ (t - 1)) ->
                    zdist (s * 10 ^ t) <= zdist (c * 10 ^ (t - 1))) ->
      shortest x s (mk + t).
    Proof using Hprec Hv Hpos Hnum Hden Hscale.
      intros Hs Ht Hin Hno Hclose Hsmall.
      assert (Hin' : inside x (decimal s (mk + t))) by by apply inside_zin.
      assert (Hup : forall s' j', mk + t < j' -> inside x (decimal s' j') -> False).
      { intros s' j' Hj H. apply (Hno (s' * 10 ^ (j' - mk - t - 1))).
        replace (s' * 10 ^ (j' - mk - t - 1) * 10 ^ (t + 1)) with (s' * 10 ^ (j' - mk)).
        - apply inside_zin; [lia|]. by replace (mk + (j' - mk)) with j' by lia.
        - rewrite <- Z.mul_assoc, <- Z.pow_add_r by lia. f_equal. f_equal. lia. }
      assert (Hround : forall d, 1 <= d -> ~ inside x (decimal (10 ^ d) (mk + t))).
      { intros d Hd H. apply (Hno (10 ^ (d - 1))).
        replace (10 ^ (d - 1) * 10 ^ (t + 1)) with (10 ^ d * 10 ^ t).
        - by apply inside_zin.
        - rewrite <- !Z.pow_add_r by lia. f_equal. lia. }
      split; [done|]. split; [by apply reads_inside|].
      intros s' j' Hs' Hr. apply reads_inside in Hr; [|done..]. split.
      - intros d Hd Hlt. destruct (Z.lt_ge_cases s (10 ^ d)) as [|Hge]; [done|exfalso].
        destruct (Z.lt_ge_cases (mk + t) j') as [Hj|Hj]; [by eapply Hup|].
        assert (1 <= d). { destruct (decide (d = 0)) as [->|]; [|lia]. change (10 ^ 0) with 1 in Hlt. lia. }
        apply (Hround d); [done|]. eapply inside_convex; [| |exact Hr|exact Hin'].
        + apply decimal_le; [lia|lia|]. assert (0 < 10 ^ (mk + t - j')) by (apply Z.pow_pos_nonneg; lia). nia.
        + apply decimal_le; [lia|lia|]. rewrite Z.sub_diag. change (10 ^ 0) with 1. lia.
      - intros Hdig. destruct (Z.lt_trichotomy j' (mk + t)) as [Hj|[->|Hj]].
        + destruct (digits_exist s Hs) as (d & Hd & Hd1 & Hd2).
          specialize (Hdig (d + 1) ltac:(lia) Hd2).
          assert (H10 : inside x (decimal (10 ^ d) (mk + t))).
          { eapply inside_convex; [| |exact Hr|exact Hin'].
            - apply decimal_le; [lia|lia|]. replace (mk + t - j') with (1 + (mk + t - j' - 1)) by lia.
              rewrite Z.pow_add_r in * by lia.
              assert (0 < 10 ^ (mk + t - j' - 1)) by (apply Z.pow_pos_nonneg; lia).
              assert (0 < 10 ^ d) by (apply Z.pow_pos_nonneg; lia). nia.
            - apply decimal_le; [lia|lia|]. rewrite Z.sub_diag. change (10 ^ 0) with 1. lia. }
          destruct (Z.le_gt_cases 1 d) as [H1|H1]; [by destruct (Hround d H1)|].
          assert (d = 0) as -> by lia. change (10 ^ (0 + 1)) with 10 in *. change (10 ^ 0) with 1 in *.
          pose proof (low4_bounds x) as Hlb.
          assert (Hw : forall c, 0 < c -> inside x (decimal s' j') -> inside x (decimal 1 (mk + t)) ->
                    c * s' <= 10 ^ (mk + t - j') -> c * low4 x <= high4 x).
          { intros c Hc Ha Hb Hle.
            assert (Hx : (inject_Z (low4 x) * quarter x <= decimal s' j')%Q) by (destruct Ha as [|]; lra).
            assert (Hy : (decimal 1 (mk + t) <= inject_Z (high4 x) * quarter x)%Q) by (destruct Hb as [|]; lra).
            assert (Hz : (decimal (c * s') j' <= decimal 1 (mk + t))%Q) by (apply decimal_le; lia).
            assert (Hz' : (decimal (c * s') j' == inject_Z c * decimal s' j')%Q).
            { unfold decimal. rewrite inject_Z_mult. ring. }
            assert (Hcq : (0 < inject_Z c)%Q) by (change 0%Q with (inject_Z 0); rewrite <- Zlt_Qlt; lia).
            assert (Hc2 : (inject_Z c * (inject_Z (low4 x) * quarter x) <= inject_Z c * decimal s' j')%Q)
              by (by apply Qmult_le_l).
            assert (Hf : (inject_Z (c * low4 x) * quarter x <= inject_Z (high4 x) * quarter x)%Q).
            { rewrite inject_Z_mult, <- Qmult_assoc. lra. }
            apply Qmult_le_r in Hf; [by rewrite <- Zle_Qle in Hf|apply p2_pos]. }
          destruct (Z.le_gt_cases j' (mk + t - 2)) as [Hj2|Hj2].
          { exfalso. replace (mk + t - j') with (2 + (mk + t - j' - 2)) in Hw by lia.
            rewrite Z.pow_add_r in Hw by lia. change (10 ^ 2) with 100 in Hw.
            assert (0 < 10 ^ (mk + t - j' - 2)) by (apply Z.pow_pos_nonneg; lia).
            specialize (Hw 11 ltac:(lia) Hr H10 ltac:(nia)). unfold high4 in Hw. lia. }
          assert (j' = mk + t - 1) as -> by lia.
          destruct Hsmall as [Hbig|[Ht1 Hsmall]].
          { exfalso. replace (mk + t - (mk + t - 1)) with 1 in Hw by lia. change (10 ^ 1) with 10 in Hw.
            assert (Hx : (inject_Z (low4 x) * quarter x <= decimal s' (mk + t - 1))%Q) by (destruct Hr as [|]; lra).
            assert (Hy : (decimal 1 (mk + t) <= inject_Z (high4 x) * quarter x)%Q) by (destruct H10 as [|]; lra).
            assert (Hz : (inject_Z 10 * decimal s' (mk + t - 1) <= inject_Z 9 * decimal 1 (mk + t))%Q).
            { assert (Hq : (inject_Z 9 * decimal 1 (mk + t) == decimal 90 (mk + t - 1))%Q).
              { unfold decimal. replace (mk + t) with (1 + (mk + t - 1)) at 1 by lia. rewrite p10_add.
                change (p10 1) with (inject_Z 10). rewrite !Qmult_assoc, <- !inject_Z_mult. done. }
              rewrite Hq. unfold decimal. rewrite Qmult_assoc, <- inject_Z_mult.
              apply Qmult_le_compat_r; [rewrite <- Zle_Qle; lia|apply Qlt_le_weak, p10_pos]. }
            assert (Hf : (inject_Z (10 * low4 x) * quarter x <= inject_Z (9 * high4 x) * quarter x)%Q).
            { rewrite !inject_Z_mult, <- !Qmult_assoc.
              change (inject_Z 10) with (10#1)%Q in *. change (inject_Z 9) with (9#1)%Q in *. lra. }
            apply Qmult_le_r in Hf; [|apply p2_pos]. rewrite <- Zle_Qle in Hf. unfold high4 in Hf. lia. }
          rewrite (decimal_unit s t) by done. replace (mk + t - 1) with (mk + (t - 1)) in * by lia.
          rewrite (decimal_unit s' (t - 1)) by lia. apply dist_le.
          apply Hsmall; [lia|]. apply inside_zin; [lia|done].
        + rewrite !decimal_unit by done. apply dist_le, Hclose. by apply inside_zin.
        + exfalso. by eapply Hup.
    Qed.
  End scaled.
End format.
