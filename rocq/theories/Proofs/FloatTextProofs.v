(** How many digits the shortest decimals have, and reading back the text of a number. *)
From Coq Require Import ZArith QArith Qpower Qabs Lqa.
From Verif Require Import Base.Cpp Model.Format Model.Dragonbox Model.FloatLayout Spec.FormatSpec Spec.FloatText Spec.FloatSpec
  Proofs.FmtIntProofs Proofs.FormatWrite Proofs.FloatSpecProofs Proofs.DragonboxProofs Proofs.FloatLayoutProofs.
Set Default Proof Using "Type".
Ltac Zify.zify_post_hook ::= idtac.
Local Open Scope Z_scope.

Lemma reads_proper F (x : number F) d d' : (d == d')%Q -> reads_as d x -> reads_as d' x.
Proof. intros Heq [H1 H2]. split; [by rewrite <- Heq|]. intros y Hy Hne. rewrite <- Heq. by apply H2. Qed.

Lemma decimal_mul s k j : 0 <= k -> (decimal (s * 10 ^ k) j == decimal s (j + k))%Q.
Proof. intros Hk. unfold decimal. rewrite inject_Z_mult, p10_add, (p10_Z k) by done. ring. Qed.

(** ** The number of digits *)
Section digits.
  Context (F : format) (Hprec : 2 <= prec F).
  Implicit Type x : number F.

  Lemma near_reads x d : valid x -> 0 < significand x ->
    (Qabs (d - value x) * inject_Z (2 ^ (prec F + 1)) < value x)%Q -> reads_as d x.
  Proof using Hprec.
    intros Hv Hpos Hd. apply reads_inside; [done..|]. unfold inside, low4, high4. left.
    rewrite value_quarter in Hd by done. pose proof (p2_pos (exponent x - 2)) as Hq. set (q := p2 (exponent x - 2)) in *.
    destruct Hv as ((_ & Hlt) & _ & _). set (f := significand x) in *.
    assert (H2 : 2 ^ (prec F + 1) = 2 * 2 ^ prec F) by (rewrite Z.pow_add_r by lia; lia).
    assert (H3 : 2 ^ prec F = 2 * 2 ^ (prec F - 1)).
    { replace (prec F) with (1 + (prec F - 1)) at 1 by lia. rewrite Z.pow_add_r by lia. lia. }
    pose proof (Z.pow_pos_nonneg 2 (prec F - 1) ltac:(lia) ltac:(lia)) as Hh.
    assert (Hb : forall c, 4 * f <= c * 2 ^ (prec F + 1) ->
      (inject_Z (4 * f - c) * q < d /\ d < inject_Z (4 * f + c) * q)%Q).
    { intros c Hc.
      assert (Hab : (Qabs (d - inject_Z (4 * f) * q) < inject_Z c * q)%Q).
      { apply Qnot_le_lt. intros Hge. apply (Qlt_not_le _ _ Hd).
        apply Qle_trans with (inject_Z c * q * inject_Z (2 ^ (prec F + 1)))%Q.
        - setoid_replace (inject_Z c * q * inject_Z (2 ^ (prec F + 1)))%Q with (inject_Z (c * 2 ^ (prec F + 1)) * q)%Q
            by (rewrite inject_Z_mult; ring).
          apply Qmult_le_compat_r; [by rewrite <- Zle_Qle|lra].
        - apply Qmult_le_compat_r; [done|]. change 0%Q with (inject_Z 0). rewrite <- Zle_Qle. lia. }
      apply Qabs_Qlt_condition in Hab. unfold Z.sub. rewrite !inject_Z_plus, inject_Z_opp. split; lra. }
    destruct (decide (f = 2 ^ (prec F - 1) /\ emin F < exponent x)) as [[Hf _]|_].
    - destruct (Hb 1 ltac:(lia)) as [Hb1 Hb2]. split; [done|]. eapply Qlt_trans; [done|].
      apply Qmult_lt_r; [done|]. rewrite <- Zlt_Qlt. lia.
    - apply (Hb 2). lia.
  Qed.

  (** How large the exponents are. *)
  Lemma shortest_exponent x s j n X : valid x -> 0 < significand x -> shortest x s j ->
    0 <= n -> 10 ^ n <= s < 10 ^ (n + 1) ->
    0 <= emax F -> emin F <= 1 -> 0 < X -> 2 ^ (prec F + emax F) <= 10 ^ X -> 2 ^ (1 - emin F) <= 10 ^ X ->
    - X <= n + j < X.
  Proof using Hprec.
    intros Hv Hpos (Hs & (Htop & Hnear) & _) Hn Hsn Hemax Hemin HX HX1 HX2.
    assert (Hd : (0 < decimal s j)%Q).
    { unfold decimal. apply Qmult_lt_0_compat; [|apply p10_pos]. change 0%Q with (inject_Z 0). by rewrite <- Zlt_Qlt. }
    assert (Hlow : (p10 (n + j) <= decimal s j)%Q).
    { unfold decimal. rewrite p10_add, (p10_Z n) by done. apply Qmult_le_compat_r; [rewrite <- Zle_Qle; lia|].
      apply Qlt_le_weak, p10_pos. }
    assert (Hhigh : (decimal s j < p10 (n + 1 + j))%Q).
    { unfold decimal. rewrite p10_add, (p10_Z (n + 1)) by lia. apply Qmult_lt_r; [apply p10_pos|]. rewrite <- Zlt_Qlt. lia. }
    assert (Hmono : forall a b, (p10 a < p10 b)%Q -> a < b).
    { intros a b Hab. destruct (decide (b <= a)) as [Hba|]; [|lia]. exfalso. apply (Qlt_not_le _ _ Hab).
      replace a with (b + (a - b)) by lia. rewrite p10_add, (p10_Z (a - b)) by lia.
      rewrite <- (Qmult_1_r (p10 b)) at 1. rewrite (Qmult_comm _ 1), (Qmult_comm (p10 b)).
      apply Qmult_le_compat_r; [|apply Qlt_le_weak, p10_pos]. change 1%Q with (inject_Z 1). rewrite <- Zle_Qle.
      pose proof (Z.pow_pos_nonneg 10 (a - b)). lia. }
    split.
    - (* nearer to x than to 0 *)
      assert (Hz : valid (Number 0 (emin F) : number F)).
      { destruct Hv as (? & ? & _). cbn. pose proof (Z.pow_pos_nonneg 2 (prec F) ltac:(lia) ltac:(lia)). unfold valid. cbn [significand exponent]. lia. }
      assert (Hne : Number 0 (emin F) <> x) by (intros <-; cbn in Hpos; lia).
      assert (Hv0 : (value (Number 0 (emin F) : number F) == 0)%Q) by (unfold value; cbn [significand exponent]; ring).
      assert (Hle : (Qabs (decimal s j - value x) <= decimal s j)%Q).
      { destruct (Hnear _ Hz Hne) as [H|[H _]]; rewrite Hv0 in H; rewrite (Qabs_pos (decimal s j - 0)) in H by lra; lra. }
      apply Qabs_Qle_condition in Hle.
      assert (Hvx : (p2 (emin F) <= value x)%Q).
      { unfold value. destruct Hv as (_ & He & _). replace (exponent x) with ((exponent x - emin F) + emin F) by lia.
        rewrite p2_add, (p2_Z (exponent x - emin F)) by lia. rewrite Qmult_assoc, <- inject_Z_mult.
        rewrite <- (Qmult_1_l (p2 (emin F))) at 1. apply Qmult_le_compat_r; [|apply Qlt_le_weak, p2_pos].
        change 1%Q with (inject_Z 1). rewrite <- Zle_Qle.
        pose proof (Z.pow_pos_nonneg 2 (exponent x - emin F) ltac:(lia) ltac:(lia)). nia. }
      assert (HpX : (p10 (- X) * inject_Z 2 <= p2 (emin F))%Q).
      { pose proof (p10_pos (- X)) as Hp. pose proof (p2_pos (emin F)) as Hp2.
        assert (HXX : (p10 (- X) * p10 X == 1)%Q) by (rewrite <- p10_add; by replace (- X + X) with 0 by lia).
        assert (H22 : (p2 (1 - emin F) * p2 (emin F) == inject_Z 2)%Q) by (rewrite <- p2_add; by replace (1 - emin F + emin F) with 1 by lia).
        assert (Hle2 : (p2 (1 - emin F) <= p10 X)%Q) by (rewrite p2_Z, p10_Z by lia; by rewrite <- Zle_Qle).
        clear -Hp Hp2 HXX H22 Hle2. set (a := p10 (- X)) in *. set (b := p10 X) in *. set (c := p2 (1 - emin F)) in *.
        set (d := p2 (emin F)) in *. clearbody a b c d.
        assert (Hac : (a * c <= a * b)%Q) by (rewrite !(Qmult_comm a); apply Qmult_le_compat_r; lra).
        assert (Hacd : (a * c * d <= a * b * d)%Q) by (apply Qmult_le_compat_r; lra).
        rewrite <- H22. setoid_replace (a * (c * d))%Q with (a * c * d)%Q by ring. rewrite HXX in Hacd. lra. }
      assert ((p10 (- X) < p10 (n + 1 + j))%Q) as Hlt.
      { eapply Qle_lt_trans; [|exact Hhigh]. assert (Htw : (p10 (- X) * inject_Z 2 == p10 (- X) + p10 (- X))%Q) by (generalize (p10 (- X)); intros q; change (inject_Z 2) with (1 + 1)%Q; ring). lra. }
      apply Hmono in Hlt. lia.
    - assert ((p10 (n + j) < p10 X)%Q) as Hlt; [|by apply Hmono in Hlt].
      eapply Qle_lt_trans; [exact Hlow|]. eapply Qlt_le_trans; [exact Htop|].
      apply Qle_trans with (inject_Z (2 ^ (prec F + 1)) * p2 (emax F - 1))%Q.
      + apply Qmult_le_compat_r; [rewrite <- Zle_Qle; lia|apply Qlt_le_weak, p2_pos].
      + rewrite <- p2_Z, <- p2_add by lia. replace (prec F + 1 + (emax F - 1)) with (prec F + emax F) by lia.
        rewrite p2_Z, p10_Z by lia. by rewrite <- Zle_Qle.
  Qed.

  Context (P : Z) (HP : 0 < P) (Hpow : 2 ^ prec F < 10 ^ (P - 1)).
  (** Some decimal of at most [P] digits is read as [x]. *)
  Lemma short_exists x : valid x -> 0 < significand x ->
    exists s j, 0 < s < 10 ^ P /\ reads_as (decimal s j) x.
  Proof using All.
    intros Hv Hpos. set (f := significand x) in *. set (e := exponent x).
    set (K := Z.max (- e) P). set (N := f * 2 ^ (e + K) * 5 ^ K).
    assert (Hval : (value x == decimal N (- K))%Q).
    { unfold decimal, N, value. fold f e. rewrite !inject_Z_mult.
      rewrite <- p2_Z, <- p5_Z by lia. rewrite (p10_split (- K)), p2_add.
      pose proof (p2_opp K). pose proof (p5_opp K).
      setoid_replace (inject_Z f * (p2 e * p2 K) * Qpower (inject_Z 5) K * (Qpower (inject_Z 5) (- K) * p2 (- K)))%Q
        with (inject_Z f * p2 e * (p2 K * p2 (- K)) * (Qpower (inject_Z 5) K * Qpower (inject_Z 5) (- K)))%Q by ring.
      rewrite H, H0. ring. }
    assert (HN : 0 < N).
    { unfold N. repeat apply Z.mul_pos_pos; [done|apply Z.pow_pos_nonneg; lia|apply Z.pow_pos_nonneg; lia]. }
    (* scale up so that there are digits to drop *)
    set (M := N * 10 ^ P).
    assert (HvalM : (value x == decimal M (- K - P))%Q).
    { unfold M. rewrite Hval. rewrite decimal_mul by lia. by replace (- K - P + P) with (- K) by lia. }
    pose proof (Z.pow_pos_nonneg 10 P ltac:(lia) ltac:(lia)) as H10P.
    assert (Hm : exists m, 0 <= m /\ 10 ^ m <= M < 10 ^ (m + 1)).
    { assert (HM : 0 < M) by (unfold M; lia). clear -HM.
      assert (Hex : exists k : nat, M < 10 ^ (Z.of_nat k + 1)).
      { exists (Z.to_nat M). apply Z.lt_trans with (10 ^ M); [apply Z.pow_gt_lin_r; lia|].
        apply Z.pow_lt_mono_r; lia. }
      destruct Hex as [k Hk]. induction k as [|k IH]; [exists 0; cbn in *; lia|].
      destruct (decide (M < 10 ^ (Z.of_nat k + 1))) as [H|H]; [by apply IH|].
      exists (Z.of_nat (S k)). replace (Z.of_nat (S k)) with (Z.of_nat k + 1) in * by lia. lia. }
    destruct Hm as (m & Hm0 & Hm1 & Hm2).
    assert (HmP : P <= m).
    { destruct (decide (m < P)) as [H|]; [|lia]. exfalso. assert (10 ^ (m + 1) <= 10 ^ P) by (apply Z.pow_le_mono_r; lia).
      unfold M in *. nia. }
    set (D := 10 ^ (m - P + 1)).
    assert (HD : 0 < D) by (apply Z.pow_pos_nonneg; lia).
    assert (HDm : 10 ^ m = D * 10 ^ (P - 1)) by (unfold D; rewrite <- Z.pow_add_r by lia; f_equal; lia).
    assert (HDm1 : 10 ^ (m + 1) = D * 10 ^ P) by (unfold D; rewrite <- Z.pow_add_r by lia; f_equal; lia).
    set (s := (2 * M + D) / (2 * D)).
    pose proof (Z.div_mod (2 * M + D) (2 * D) ltac:(lia)) as Hdm. fold s in Hdm.
    pose proof (Z.mod_pos_bound (2 * M + D) (2 * D) ltac:(lia)) as Hmb.
    set (r := (2 * M + D) mod (2 * D)) in *.
    assert (Herr : 2 * Z.abs (s * D - M) <= D) by lia.
    assert (Hreads : reads_as (decimal s (m - P + 1 - K - P)) x).
    { assert (Hds : (decimal s (m - P + 1 - K - P) == decimal (s * D) (- K - P))%Q).
      { unfold D. rewrite decimal_mul by lia. by replace (- K - P + (m - P + 1)) with (m - P + 1 - K - P) by lia. }
      apply near_reads; [done..|]. rewrite Hds, HvalM. unfold decimal.
      pose proof (p10_pos (- K - P)) as Hp. set (p := p10 (- K - P)) in *.
      setoid_replace (inject_Z (s * D) * p - inject_Z M * p)%Q with (inject_Z (s * D - M) * p)%Q
        by (unfold Z.sub; rewrite inject_Z_plus, inject_Z_opp; ring).
      rewrite Qabs_Qmult, (Qabs_pos p) by lra.
      setoid_replace (Qabs (inject_Z (s * D - M))) with (inject_Z (Z.abs (s * D - M))) by reflexivity.
      setoid_replace (inject_Z (Z.abs (s * D - M)) * p * inject_Z (2 ^ (prec F + 1)))%Q
        with (inject_Z (Z.abs (s * D - M) * 2 ^ (prec F + 1)) * p)%Q by (rewrite inject_Z_mult; ring).
      apply Qmult_lt_r; [done|]. rewrite <- Zlt_Qlt.
      rewrite Z.pow_add_r by lia. change (2 ^ 1) with 2.
      apply Z.le_lt_trans with (D * 2 ^ prec F).
      - pose proof (Z.pow_pos_nonneg 2 (prec F) ltac:(lia) ltac:(lia)). nia.
      - apply Z.lt_le_trans with (D * 10 ^ (P - 1)); [apply Z.mul_lt_mono_pos_l; lia|lia]. }
    assert (Hs0 : 0 < s).
    { pose proof (Z.pow_pos_nonneg 10 (P - 1) ltac:(lia) ltac:(lia)). nia. }
    assert (HsP : s <= 10 ^ P) by nia.
    destruct (decide (s = 10 ^ P)) as [Heq|Hne].
    - exists 1, (m - P + 1 - K - P + P). split.
      + split; [lia|]. apply Z.pow_gt_1; lia.
      + eapply reads_proper; [|exact Hreads]. rewrite Heq. replace (10 ^ P) with (1 * 10 ^ P) by lia.
        by rewrite decimal_mul by lia.
    - exists s, (m - P + 1 - K - P). split; [lia|done].
  Qed.

  Lemma shortest_short x s j : valid x -> 0 < significand x -> shortest x s j -> 0 < s < 10 ^ P.
  Proof using All.
    intros Hv Hpos (Hs & _ & Hmin). destruct (short_exists x Hv Hpos) as (s' & j' & Hs' & Hr).
    split; [done|]. destruct (Hmin s' j' ltac:(lia) Hr) as [Hlt _]. apply Hlt; lia.
  Qed.

End digits.

(** ** Reading the text *)
Notation numb := (FormatSpec.number 10).

Lemma zeros_digits k : zeros k = digit_text (replicate (Z.to_nat k) 0).
Proof. unfold zeros, digit_text. by rewrite fmap_replicate. Qed.
Lemma replicate_all_digits k : all_digits (replicate k 0).
Proof. apply Forall_replicate. lia. Qed.
Lemma numb_zeros k : numb (replicate k 0) = 0.
Proof. induction k as [|k IH]; [done|]. cbn [replicate]. rewrite number_cons, IH. lia. Qed.
Lemma numb_zeros_after ds k : 0 <= k -> numb (ds ++ replicate (Z.to_nat k) 0) = numb ds * 10 ^ k.
Proof. intros Hk. rewrite number_app, numb_zeros, replicate_length, Z2Nat.id by done. lia. Qed.
Lemma numb_zeros_before ds k : numb (replicate k 0 ++ ds) = numb ds.
Proof. rewrite number_app, numb_zeros. lia. Qed.

Lemma app_not_nil {A} (l l' : list A) : l <> [] -> l ++ l' <> [].
Proof. by destruct l. Qed.

Lemma fixed_text_reads point k ds j : ds <> [] -> all_digits ds -> 0 <= k -> 
  exists n e, number_text (fixed_text point k ds j) n e /\ (decimal n e == decimal (numb ds) j)%Q.
Proof.
  intros Hne Hds Hk. unfold fixed_text. destruct (decide (0 <= j)) as [Hj|Hj].
  - destruct point.
    + exists (numb ((ds ++ replicate (Z.to_nat j) 0) ++ replicate (Z.to_nat k) 0)), (- Z.of_nat (length (replicate (Z.to_nat k) 0))).
      split.
      * rewrite !zeros_digits, app_assoc, <- digit_text_app. constructor. constructor.
        -- by apply app_not_nil.
        -- apply Forall_app. split; [done|apply replicate_all_digits].
        -- apply replicate_all_digits.
      * rewrite replicate_length, !numb_zeros_after by done. rewrite !decimal_mul by done. by replace (- Z.of_nat (Z.to_nat k) + k + j) with j by lia.
    + exists (numb (ds ++ replicate (Z.to_nat j) 0)), 0. split.
      * rewrite !zeros_digits, app_nil_r, <- digit_text_app. constructor. constructor.
        -- by apply app_not_nil.
        -- apply Forall_app. split; [done|apply replicate_all_digits].
      * rewrite numb_zeros_after, decimal_mul by done. by replace (0 + j) with j by lia.
  - destruct (decide (0 < Z.of_nat (length ds) + j)) as [Hp|Hp].
    + set (i := Z.to_nat (Z.of_nat (length ds) + j)).
      exists (numb (take i ds ++ drop i ds ++ replicate (Z.to_nat k) 0)), (- Z.of_nat (length (drop i ds ++ replicate (Z.to_nat k) 0))).
      split.
      * rewrite !zeros_digits, <- digit_text_app. constructor. constructor.
        -- intros H. apply (f_equal length) in H. rewrite take_length in H. cbn in H. unfold i in H.
           destruct ds; [done|]. cbn in *. lia.
        -- by apply Forall_take.
        -- apply Forall_app. split; [by apply Forall_drop|apply replicate_all_digits].
      * rewrite app_assoc, take_drop, numb_zeros_after, decimal_mul by done.
        rewrite app_length, replicate_length, drop_length.
        replace (- Z.of_nat (length ds - i + Z.to_nat k) + k) with j by (unfold i; lia). done.
    + exists (numb ([0] ++ (replicate (Z.to_nat (- (Z.of_nat (length ds) + j))) 0 ++ ds ++ replicate (Z.to_nat k) 0))),
        (- Z.of_nat (length (replicate (Z.to_nat (- (Z.of_nat (length ds) + j))) 0 ++ ds ++ replicate (Z.to_nat k) 0))).
      split.
      * rewrite !zeros_digits. rewrite <- !digit_text_app. change [48; 46] with (digit_text [0] ++ [46]).
        rewrite <- app_assoc. constructor. constructor; [done|by repeat constructor|].
        apply Forall_app. split; [apply replicate_all_digits|]. apply Forall_app. split; [done|apply replicate_all_digits].
      * rewrite (numb_zeros_before _ 1), numb_zeros_before, numb_zeros_after, decimal_mul by done.
        rewrite !app_length, !replicate_length.
        match goal with |- (decimal _ ?a == _)%Q => replace a with j by lia end. done.
Qed.

Lemma exponent_reads s n e upper x ex : mantissa_text s n e -> exponent_text upper x ex -> number_text (s ++ ex) n (e + x).
Proof.
  intros Hm (xs & Hn & ->). destruct Hn as (xs' & Hxs & Hf & Hv & Hne & _).
  assert (Hlen : length xs = length xs') by (apply (f_equal length) in Hxs; by rewrite fmap_length, digit_text_length in Hxs).
  change (digit_char false <$> xs') with (digit_text xs') in Hxs. rewrite Hxs.
  rewrite zeros_digits, <- digit_text_app.
  set (ys := replicate (Z.to_nat (2 - Z.of_nat (length xs))) 0 ++ xs').
  assert (Hys : numb ys = Z.abs x) by (unfold ys; by rewrite numb_zeros_before).
  assert (Hyd : all_digits ys) by (apply Forall_app; split; [apply replicate_all_digits|done]).
  assert (Hyn : ys <> []) by (unfold ys; destruct xs'; [done|]; destruct (replicate _ _); done).
  destruct (decide (x < 0)) as [Hx|Hx].
  - replace (e + x) with (e - numb ys) by lia. apply Scaled_down; [done|destruct upper; auto|done..].
  - replace (e + x) with (e + numb ys) by lia. apply Scaled_up; [done|destruct upper; auto|done..].
Qed.

Lemma scientific_text_reads upper point k ds j s : ds <> [] -> all_digits ds -> 0 <= k -> (k = 0 \/ point = true) ->
  scientific_text upper point k ds j s ->
  exists n e, number_text s n e /\ (decimal n e == decimal (numb ds) j)%Q.
Proof.
  intros Hne Hds Hk Hkp (ex & Hex & ->).
  destruct (decide (length ds = 1%nat /\ point = false)) as [[Hl ->]|Hl].
  - destruct Hkp as [->|?]; [|done]. exists (numb ds), (0 + (Z.of_nat (length ds) + j - 1)). split.
    + replace (digit_text (take 1 ds) ++ [] ++ digit_text (drop 1 ds) ++ zeros 0 ++ ex) with (digit_text ds ++ ex).
      * apply (exponent_reads _ _ _ upper); [by constructor|done].
      * rewrite (firstn_all2 ds), (skipn_all2 ds) by lia. done.
    + rewrite Hl. by replace (0 + (Z.of_nat 1 + j - 1)) with j by lia.
  - exists (numb (take 1 ds ++ drop 1 ds ++ replicate (Z.to_nat k) 0)),
      (- Z.of_nat (length (drop 1 ds ++ replicate (Z.to_nat k) 0)) + (Z.of_nat (length ds) + j - 1)).
    split.
    + rewrite zeros_digits. replace (digit_text (take 1 ds) ++ [46] ++ digit_text (drop 1 ds) ++ digit_text (replicate (Z.to_nat k) 0) ++ ex)
        with ((digit_text (take 1 ds) ++ [46] ++ digit_text (drop 1 ds ++ replicate (Z.to_nat k) 0)) ++ ex)
        by (rewrite digit_text_app, <- !app_assoc; done).
      apply (exponent_reads _ _ _ upper); [|done]. constructor.
      * by destruct ds.
      * by apply Forall_take.
      * apply Forall_app. split; [by apply Forall_drop|apply replicate_all_digits].
    + rewrite app_assoc, take_drop, numb_zeros_after, decimal_mul by done. rewrite app_length, replicate_length, drop_length.
      destruct ds as [|d ds]; [done|]. cbn [length].
      match goal with |- (decimal _ ?a == _)%Q => replace a with j by lia end. done.
Qed.

Lemma general_text_reads ds j s : ds <> [] -> all_digits ds -> general_text ds j s ->
  exists n e, number_text s n e /\ (decimal n e == decimal (numb ds) j)%Q.
Proof.
  intros Hne Hds. unfold general_text. destruct (decide _).
  - intros ->. by apply fixed_text_reads.
  - apply scientific_text_reads; auto. lia.
Qed.

(** The text determines what is read. *)
Lemma digit_text_inj a b : all_digits a -> all_digits b -> digit_text a = digit_text b -> a = b.
Proof.
  revert b. induction a as [|x a IH]; intros [|y b] Ha Hb; try done. intros [= H1 H2].
  apply Forall_cons in Ha as [Hx Ha]. apply Forall_cons in Hb as [Hy Hb].
  rewrite !digit_char_lt10 in H1 by lia. f_equal; [lia|by apply IH].
Qed.
Lemma digit_text_chars a : all_digits a -> Forall (fun c => 48 <= c <= 57) (digit_text a).
Proof. intros Ha. apply Forall_fmap. eapply Forall_impl; [done|]. intros x Hx. cbn in *. rewrite digit_char_lt10 by lia. lia. Qed.
(** Two texts that agree, split at the first char that is not of a kind. *)
Lemma split_same (P : Z -> Prop) a b c d x y : Forall P a -> Forall P b -> ~ P x -> ~ P y ->
  a ++ x :: c = b ++ y :: d -> a = b /\ x = y /\ c = d.
Proof.
  revert b. induction a as [|u a IH]; intros [|v b] Ha Hb Hx Hy; cbn; intros [= H1 H2].
  - done.
  - apply Forall_cons in Hb as [Hv _]. congruence.
  - apply Forall_cons in Ha as [Hu _]. congruence.
  - apply Forall_cons in Ha as [_ Ha]. apply Forall_cons in Hb as [_ Hb].
    destruct (IH b Ha Hb Hx Hy H2) as (-> & -> & ->). by subst.
Qed.
Lemma split_none (P : Z -> Prop) a c b x : Forall P a -> ~ P x -> a = b ++ x :: c -> False.
Proof. intros Ha Hx ->. apply Forall_app in Ha as [_ Ha]. apply Forall_cons in Ha as [? _]. done. Qed.

Lemma mantissa_unique s n e n' e' : mantissa_text s n e -> mantissa_text s n' e' -> n = n' /\ e = e'.
Proof.
  intros H H'. inversion H as [ds Hne Hds|ip fp Hne Hip Hfp]; inversion H' as [ds' Hne' Hds' Heq|ip' fp' Hne' Hip' Hfp' Heq]; subst.
  - apply digit_text_inj in Heq; [|done..]. by subst.
  - exfalso. symmetry in Heq. cbn in Heq.
    eapply (split_none (fun c => 48 <= c <= 57)); [by apply (digit_text_chars ds)| |exact Heq]. lia.
  - exfalso. cbn in Heq. eapply (split_none (fun c => 48 <= c <= 57)); [by apply (digit_text_chars ds')| |exact Heq]. lia.
  - cbn in Heq. apply (split_same (fun c => 48 <= c <= 57)) in Heq as (H1 & _ & H2); try (by apply digit_text_chars); try lia.
    apply digit_text_inj in H1; [|done..]. apply digit_text_inj in H2; [|done..]. by subst.
Qed.
Lemma mantissa_chars s n e : mantissa_text s n e -> Forall (fun c => c <> 101 /\ c <> 69) s.
Proof.
  intros H. assert (Hd : forall ds, all_digits ds -> Forall (fun c => c <> 101 /\ c <> 69) (digit_text ds)).
  { intros ds Hds. eapply Forall_impl; [by apply digit_text_chars|]. cbn. lia. }
  inversion H; subst; [by apply Hd|]. repeat (apply Forall_app; split); [by apply Hd|repeat constructor; lia|by apply Hd].
Qed.
Lemma number_text_unique s n e n' e' : number_text s n e -> number_text s n' e' -> n = n' /\ e = e'.
Proof.
  intros H H'.
  assert (Hc : forall c, c = 101 \/ c = 69 -> ~ (c <> 101 /\ c <> 69)) by lia.
  inversion H as [a1 b1 c1 Hm|a1 b1 c1 d1 f1 Hm Hc1 Hn1 Hd1|a1 b1 c1 d1 f1 Hm Hc1 Hn1 Hd1];
  inversion H' as [a2 b2 c2 Hm2|a2 b2 c2 d2 f2 Hm2 Hc2 Hn2 Hd2 Heq|a2 b2 c2 d2 f2 Hm2 Hc2 Hn2 Hd2 Heq]; subst;
    pose proof (mantissa_chars _ _ _ Hm) as Hch; pose proof (mantissa_chars _ _ _ Hm2) as Hch2.
  - by apply (mantissa_unique s).
  - exfalso. eapply split_none; [exact Hch|exact (Hc _ Hc2)|]. done.
  - exfalso. eapply split_none; [exact Hch|exact (Hc _ Hc2)|]. done.
  - exfalso. eapply split_none; [exact Hch2|exact (Hc _ Hc1)|]. done.
  - cbn in Heq. apply (split_same (fun c => c <> 101 /\ c <> 69)) in Heq as (H1 & _ & H2); try done; try by apply Hc.
    subst. injection H2 as H2. apply digit_text_inj in H2; [|done..]. subst.
    destruct (mantissa_unique _ _ _ _ _ Hm Hm2) as [-> ->]. done.
  - cbn in Heq. apply (split_same (fun c => c <> 101 /\ c <> 69)) in Heq as (H1 & _ & H2); try done; try by apply Hc.
  - exfalso. eapply split_none; [exact Hch2|exact (Hc _ Hc1)|]. done.
  - cbn in Heq. apply (split_same (fun c => c <> 101 /\ c <> 69)) in Heq as (H1 & _ & H2); try done; try by apply Hc.
  - cbn in Heq. apply (split_same (fun c => c <> 101 /\ c <> 69)) in Heq as (H1 & _ & H2); try done; try by apply Hc.
    subst. injection H2 as H2. apply digit_text_inj in H2; [|done..]. subst.
    destruct (mantissa_unique _ _ _ _ _ Hm Hm2) as [-> ->]. done.
Qed.
(** It begins with a digit. *)
Lemma number_text_head s n e : number_text s n e -> exists c r, s = c :: r /\ 48 <= c <= 57.
Proof.
  assert (Hm : forall s n e, mantissa_text s n e -> exists c r, s = c :: r /\ 48 <= c <= 57).
  { intros s' n' e' H. assert (Hd : forall ds, ds <> [] -> all_digits ds -> exists c r, digit_text ds = c :: r /\ 48 <= c <= 57).
    { intros [|d ds] Hne Hds; [done|]. apply digit_text_chars in Hds. cbn in Hds. apply Forall_cons in Hds as [Hd _].
      eexists _, _. split; [reflexivity|done]. }
    inversion H as [ds Hne Hds|ip fp Hne Hip Hfp]; subst; [by apply Hd|].
    destruct (Hd ip Hne Hip) as (c & r & -> & Hc). by eexists c, _. }
  intros H. inversion H as [a1 b1 c1 H1|a1 b1 c1 d1 f1 H1|a1 b1 c1 d1 f1 H1]; subst; destruct (Hm _ _ _ H1) as (c & r & -> & Hc);
    by eexists c, _.
Qed.

(** ** Writing without specs *)
Lemma digits_exist n : 0 <= n -> exists ds, digits_of 10 n ds.
Proof.
  intros Hn. revert n Hn. apply (Zlt_0_ind (fun n => exists ds, digits_of 10 n ds)). intros n IH Hn.
  destruct (decide (n < 10)) as [Hlt|Hge].
  - exists [n]. split_and!; [repeat constructor; lia|done..|]. cbn. intros [= ->]. done.
  - pose proof (Z.div_mod n 10 ltac:(lia)) as Hdm. pose proof (Z.mod_pos_bound n 10 ltac:(lia)) as Hmb.
    destruct (IH (n / 10) ltac:(lia)) as (ds & Hf & Hv & Hne & Hz). exists (ds ++ [n mod 10]). split_and!.
    + apply Forall_app. split; [done|]. repeat constructor; lia.
    + rewrite number_snoc, Hv. lia.
    + by destruct ds.
    + destruct ds as [|d ds]; [done|]. cbn. intros [= ->]. specialize (Hz eq_refl). injection Hz as ->. cbn in Hv. lia.
Qed.

Lemma default_layout E pt out s ds e sg : sig_ok s ds -> ds <> [] -> -9999 < e + Z.of_nat (length ds) < 10000 ->
  exists text, general_text ds e text /\
    do_write_float E pt out s e default_specs (FSpecs 0 General sg false false false false) = Ok (out ++ sign_chars sg ++ text).
Proof.
  intros Hs Hne Hx. set (fs := FSpecs 0 General sg false false false false). set (len := Z.of_nat (length ds)) in *.
  assert (Hlen : 0 < len) by (unfold len; destruct ds; [done|cbn; lia]).
  assert (Hw : 0 <= width default_specs < 2 ^ 31) by done.
  assert (Hf : forall text, in_field (placement_of true (al default_specs)) (fill default_specs) (width default_specs)
    (Z.of_nat (length text)) text = text) by (intros; apply in_field_none; cbn; lia).
  assert (Huse : use_exp_format fs (e + len - 1) = negb (bool_decide (-4 <= len + e - 1 < 16))).
  { unfold use_exp_format. cbn [fs fs_format fs_precision]. rewrite decide_False by lia.
    destruct (bool_decide_reflect (-4 <= len + e - 1 < 16)) as [H|H]; cbn [negb].
    - apply orb_false_iff. split; [apply Z.ltb_ge|apply Z.leb_gt]; lia.
    - apply orb_true_iff. destruct (decide (e + len - 1 < -4)); [left; apply Z.ltb_lt; lia|right; apply Z.leb_le; lia]. }
  unfold general_text. fold len. destruct (decide (-4 <= len + e - 1 < 16)) as [Hr|Hr].
  - rewrite bool_decide_true in Huse by done. cbn [negb] in Huse.
    exists (fixed_text false 0 ds e). split; [done|].
    destruct (decide (0 <= e)) as [He|He]; [|destruct (decide (0 < e + len)) as [Hp|Hp]].
    + rewrite (layout_int E pt out s ds e default_specs fs Hs eq_refl Hw He Hlen ltac:(unfold max_int; lia) Huse), Hf.
      unfold fixed_text. by rewrite !(decide_True (P := 0 <= e)) by done.
    + rewrite (layout_mixed E pt out s ds e default_specs fs Hs eq_refl Hw ltac:(lia) ltac:(unfold max_int; lia) Huse), Hf. done.
    + rewrite (layout_small E pt out s ds e default_specs fs Hs eq_refl Hw ltac:(lia) Hlen Huse), Hf. done.
  - rewrite bool_decide_false in Huse by done. cbn [negb] in Huse.
    destruct (layout_exp E pt out s ds e default_specs fs Hs eq_refl Hw Hne Hx Huse) as (text & Hrun & Ht).
    exists text. split; [exact Ht|]. by rewrite Hrun, Hf.
Qed.

Section default.
  Context (I : float_info) {C : Type} (A : cache_accessor C) (F : format) (P X : Z).
  Let W := carrier_bits I.
  Let M := num_significand_bits I.
  Hypothesis HW : W = 32 \/ W = 64.
  Hypothesis HM : prec F = M + 1.
  Hypothesis HM0 : 1 <= M.
  Hypothesis Hbits : W = 1 + exponent_bits I + M.
  Hypothesis Heb : emax F - emin F + 2 = 2 ^ exponent_bits I - 1.
  Hypothesis Heb0 : 1 <= exponent_bits I.
  Hypothesis HP : 0 < P.
  Hypothesis Hpow : 2 ^ prec F < 10 ^ (P - 1).
  Hypothesis HPW : 10 ^ P <= 2 ^ W.
  Hypothesis HX : 0 < X <= 9000.
  Hypothesis Hemax : 0 <= emax F.
  Hypothesis Hemin : emin F <= 1.
  Hypothesis HX1 : 2 ^ (prec F + emax F) <= 10 ^ X.
  Hypothesis HX2 : 2 ^ (1 - emin F) <= 10 ^ X.
  Definition minus_text (neg : bool) : list Z := if neg then [45] else [].
  Definition fs_of (neg : bool) : float_specs := FSpecs 0 General (if neg then SMinus else SNone) false false false false.
  Lemma sign_chars_of neg : sign_chars (fs_sign (fs_of neg)) = minus_text neg.
  Proof. by destruct neg. Qed.

  Lemma land_mask m : 0 <= m < 2 ^ (W - 1) -> Z.land m (exponent_mask I) = m / 2 ^ M * 2 ^ M.
  Proof using All.
    intros Hm. unfold exponent_mask. fold M.
    replace (2 ^ exponent_bits I - 1) with (Z.ones (exponent_bits I)) by (rewrite Z.ones_equiv; lia).
    rewrite <- Z.shiftl_mul_pow2, <- Z.shiftr_div_pow2 by lia.
    apply Z.bits_inj'. intros i Hi. rewrite Z.land_spec, !Z.shiftl_spec by done.
    destruct (decide (i < M)) as [Hlt|Hge].
    - rewrite !(Z.testbit_neg_r _ (i - M)) by lia. apply andb_false_r.
    - rewrite Z.shiftr_spec by lia. replace (i - M + M) with i by lia.
      destruct (decide (i < W - 1)) as [H|H].
      + rewrite Z.ones_spec_low by lia. apply andb_true_r.
      + rewrite Z.ones_spec_high by lia. rewrite (Z.bits_above_log2 m i); [done|lia|].
        destruct (decide (m = 0)) as [->|]; [cbn; lia|]. apply Z.log2_lt_pow2; [lia|].
        eapply Z.lt_le_trans; [apply Hm|]. apply Z.pow_le_mono_r; lia.
  Qed.
  Lemma mask_value : exponent_mask I = (emax F - emin F + 2) * 2 ^ M.
  Proof using All. unfold exponent_mask. fold M. rewrite Z.shiftl_mul_pow2 by lia. by rewrite Heb. Qed.

  Lemma default_start E out br : 0 <= br < 2 ^ W ->
    let m := br mod 2 ^ (W - 1) in
    write_float_default E I A out br =
      if decide ((emax F - emin F + 2) * 2 ^ M <= m) then
        write_nonfinite out (negb (m =? (emax F - emin F + 2) * 2 ^ M)) default_specs (fs_of (2 ^ (W - 1) <=? br))
      else
        let* (n, e) := to_decimal I A m in
        do_write_float E 46 out (SNumber W n) e default_specs (fs_of (2 ^ (W - 1) <=? br)).
  Proof using All.
    intros Hbr m. unfold write_float_default. fold W M.
    assert (Hsign : sign_bit I br = (2 ^ (W - 1) <=? br)).
    { unfold sign_bit. fold W. rewrite Z.testbit_eqb by lia.
      assert (H2 : 2 ^ W = 2 * 2 ^ (W - 1)) by (replace W with (1 + (W - 1)) at 1 by lia; rewrite Z.pow_add_r by lia; lia).
      pose proof (Z.pow_pos_nonneg 2 (W - 1) ltac:(lia) ltac:(lia)) as Hp.
      destruct (Z.leb_spec (2 ^ (W - 1)) br) as [H|H].
      - assert (br / 2 ^ (W - 1) = 1) as -> by (symmetry; apply Z.div_unique with (br - 2 ^ (W - 1)); lia). done.
      - rewrite Z.div_small by lia. done. }
    assert (Hmag : magnitude I br = m) by (unfold magnitude; fold W; by rewrite Z.land_ones by lia).
    assert (Hm : 0 <= m < 2 ^ (W - 1)) by (apply Z.mod_pos_bound, Z.pow_pos_nonneg; lia).
    rewrite Hmag, Hsign.
    replace (if 2 ^ (W - 1) <=? br then set_fs_sign float_specs_zero SMinus else float_specs_zero) with (fs_of (2 ^ (W - 1) <=? br))
      by (by destruct (2 ^ (W - 1) <=? br)).
    rewrite land_mask, mask_value by done.
    pose proof (Z.pow_pos_nonneg 2 M ltac:(lia) ltac:(lia)) as Hp. pose proof (Z.div_mod m (2 ^ M) ltac:(lia)) as Hdm.
    pose proof (Z.mod_pos_bound m (2 ^ M) Hp) as Hmb. rewrite Heb.
    assert (Hq : m / 2 ^ M < 2 ^ exponent_bits I).
    { apply Z.div_lt_upper_bound; [lia|]. rewrite <- Z.pow_add_r by lia. replace (M + exponent_bits I) with (W - 1) by lia. lia. }
    destruct (decide ((2 ^ exponent_bits I - 1) * 2 ^ M <= m)) as [H|H].
    - assert (Hqe : m / 2 ^ M = 2 ^ exponent_bits I - 1).
      { assert (2 ^ exponent_bits I - 1 <= m / 2 ^ M) by (apply Z.div_le_lower_bound; lia). lia. }
      rewrite Hqe, decide_True by done. f_equal. f_equal. rewrite Z.land_ones by lia. rewrite Hqe in Hdm.
      destruct (Z.eqb_spec (m mod 2 ^ M) 0), (Z.eqb_spec m ((2 ^ exponent_bits I - 1) * 2 ^ M)); try done; lia.
    - assert (Hqe : m / 2 ^ M <> 2 ^ exponent_bits I - 1) by (intros Hqe; rewrite Hqe in Hdm; lia).
      rewrite decide_False; [done|]. intros Hc. apply Z.mul_cancel_r in Hc; lia.
  Qed.

  Lemma default_finite E out br :
    (forall br, finite_bits F br ->
      valid (of_bits F br) /\ exists s j, to_decimal I A br = Ok (s, j) /\ shortest (of_bits F br) s j) ->
    0 <= br < 2 ^ W -> finite_bits F (br mod 2 ^ (W - 1)) ->
    valid (of_bits F (br mod 2 ^ (W - 1))) /\
    exists s j ds text, shortest (of_bits F (br mod 2 ^ (W - 1))) s j /\ 0 < s < 10 ^ P /\
      numeral 10 false s (digit_text ds) /\ general_text ds j text /\
      write_float_default E I A out br = Ok (out ++ minus_text (2 ^ (W - 1) <=? br) ++ text) /\
      exists n e, number_text text n e /\ (decimal n e == decimal s j)%Q.
  Proof using All.
    intros Hshort Hbr Hfin. rewrite default_start by done.
    set (m := br mod 2 ^ (W - 1)) in *. destruct (Hshort m Hfin) as (Hv & s & j & Hrun & Hsh). split; [done|].
    pose proof (of_bits_pos F m ltac:(lia) Hfin) as Hpos.
    pose proof (shortest_short F ltac:(lia) P HP Hpow _ s j Hv Hpos Hsh) as Hs.
    clear Hshort.
    destruct (digits_exist s ltac:(lia)) as (ds & Hds).
    assert (Hne : ds <> []) by apply Hds. assert (Hf : all_digits ds) by apply Hds.
    assert (Hnum : numb ds = s) by apply Hds.
    assert (Hsig : sig_ok (SNumber W s) ds) by (apply sig_number; [done|lia|done]).
    pose proof (digits_of_ndigits 10 s ds ltac:(lia) Hds) as (Hl1 & Hl2 & Hl3).
    assert (Hexp : - X <= Z.of_nat (length ds) - 1 + j < X).
    { apply (shortest_exponent F ltac:(lia) _ s j (Z.of_nat (length ds) - 1) X Hv Hpos Hsh); try done; try lia.
      replace (Z.of_nat (length ds) - 1 + 1) with (Z.of_nat (length ds)) by lia. split; [|done].
      destruct Hl3 as [->|]; [change (10 ^ (1 - 1)) with 1; lia|done]. }
    destruct (default_layout E 46 out (SNumber W s) ds j (if 2 ^ (W - 1) <=? br then SMinus else SNone) Hsig Hne ltac:(lia))
      as (text & Htext & Hlay).
    exists s, j, ds, text. split_and!; try done; try lia.
    - by apply numeral_digits.
    - rewrite decide_False by (unfold finite_bits in Hfin; rewrite HM in Hfin; replace (M + 1 - 1) with M in Hfin by lia; lia).
      rewrite Hrun. cbn [bind]. unfold fs_of. rewrite Hlay. by destruct (2 ^ (W - 1) <=? br).
    - rewrite <- Hnum. by apply general_text_reads.
  Qed.

  Lemma default_zero E out br : 0 <= br < 2 ^ W -> br mod 2 ^ (W - 1) = 0 -> to_decimal I A 0 = Ok (0, 0) ->
    write_float_default E I A out br = Ok (out ++ minus_text (2 ^ (W - 1) <=? br) ++ [48]).
  Proof using All.
    intros Hbr Hm Hz. rewrite default_start by done. rewrite Hm.
    assert (Hpos : 0 < (emax F - emin F + 2) * 2 ^ M).
    { rewrite Heb. pose proof (Z.pow_pos_nonneg 2 M ltac:(lia) ltac:(lia)). pose proof (Z.pow_le_mono_r 2 1 (exponent_bits I) ltac:(lia) ltac:(lia)). nia. }
    rewrite decide_False by lia.
    rewrite Hz. cbn [bind].
    assert (Hds : digits_of 10 0 [0]) by (split_and!; [repeat constructor; lia|done..]).
    assert (Hsig : sig_ok (SNumber W 0) [0]) by (apply sig_number; [done|pose proof (Z.pow_pos_nonneg 2 W); lia|done]).
    destruct (default_layout E 46 out (SNumber W 0) [0] 0 (if 2 ^ (W - 1) <=? br then SMinus else SNone) Hsig ltac:(done) ltac:(cbn; lia))
      as (text & Htext & Hlay).
    unfold fs_of. rewrite Hlay. vm_compute in Htext. subst text. by destruct (2 ^ (W - 1) <=? br).
  Qed.

  Lemma default_nonfinite E out br : 0 <= br < 2 ^ W -> (emax F - emin F + 2) * 2 ^ M <= br mod 2 ^ (W - 1) ->
    write_float_default E I A out br = Ok (out ++ minus_text (2 ^ (W - 1) <=? br) ++
      (if decide (br mod 2 ^ (W - 1) = (emax F - emin F + 2) * 2 ^ M) then [105; 110; 102] else [110; 97; 110])).
  Proof using All.
    intros Hbr Hm. rewrite default_start by done. rewrite decide_True by done.
    set (m := br mod 2 ^ (W - 1)) in *. set (L := (emax F - emin F + 2) * 2 ^ M) in *.
    unfold write_nonfinite. cbn [fill default_specs]. rewrite decide_False by done.
    rewrite (write_padded_ok false out default_specs _ _ _ (sign_chars (fs_sign (fs_of (2 ^ (W - 1) <=? br))) ++
      (if negb (m =? L) then [110; 97; 110] else [105; 110; 102])));
      [|done|by destruct (2 ^ (W - 1) <=? br)|].
    - rewrite in_field_none by (by destruct (2 ^ (W - 1) <=? br)). rewrite sign_chars_of.
      destruct (Z.eqb_spec m L); cbn [negb]; [by rewrite decide_True by done|by rewrite decide_False by done].
    - intros it. cbn [fs_upper fs_of]. by destruct (negb (m =? L)).
  Qed.

  (** Different numbers have different texts. *)
  Lemma default_apart E a b t :
    (forall br, finite_bits F br ->
      valid (of_bits F br) /\ exists s j, to_decimal I A br = Ok (s, j) /\ shortest (of_bits F br) s j) ->
    to_decimal I A 0 = Ok (0, 0) ->
    0 <= a < 2 ^ W -> 0 <= b < 2 ^ W ->
    a mod 2 ^ (W - 1) <= (emax F - emin F + 2) * 2 ^ M -> b mod 2 ^ (W - 1) <= (emax F - emin F + 2) * 2 ^ M ->
    write_float_default E I A [] a = Ok t -> write_float_default E I A [] b = Ok t -> a = b.
  Proof using All.
    intros Hshort Hzero Ha Hb Hna Hnb Hta Htb. set (L := (emax F - emin F + 2) * 2 ^ M) in *.
    assert (Hchar : forall br, 0 <= br < 2 ^ W -> br mod 2 ^ (W - 1) <= L ->
      let m := br mod 2 ^ (W - 1) in
      exists body, write_float_default E I A [] br = Ok (minus_text (2 ^ (W - 1) <=? br) ++ body) /\
        ((m = L /\ body = [105; 110; 102]) \/ exists n e, number_text body n e /\
         ((m = 0 /\ (decimal n e == 0)%Q) \/ (finite_bits F m /\ exists s j, shortest (of_bits F m) s j /\ (decimal n e == decimal s j)%Q)))).
    { intros br Hbr Hm m. fold m in Hm.
      assert (Hm0 : 0 <= m) by (apply Z.mod_pos_bound, Z.pow_pos_nonneg; lia).
      destruct (decide (m = L)) as [HL|HL]; [|destruct (decide (m = 0)) as [Hz|Hz]].
      - exists [105; 110; 102]. split; [|by left]. rewrite default_nonfinite by (fold m L; lia).
        fold m L. by rewrite decide_True.
      - exists [48]. split; [by rewrite default_zero|]. right. exists 0, 0. split; [|by left].
        apply (Fixed_point [48] 0 0), (Whole [0]); [done|]. repeat constructor; lia.
      - assert (Hfin : finite_bits F m).
        { unfold finite_bits. rewrite HM. replace (M + 1 - 1) with M by lia. fold L. lia. }
        destruct (default_finite E [] br Hshort Hbr Hfin) as (_ & s & j & ds & text & Hsh & _ & _ & _ & Hrun & n & e & Hnt & Hdec).
        exists text. split; [done|]. right. exists n, e. split; [done|]. right. split; [done|]. by exists s, j. }
    destruct (Hchar a Ha Hna) as (ba & Hra & Hca). destruct (Hchar b Hb Hnb) as (bb & Hrb & Hcb).
    rewrite Hta in Hra. rewrite Htb in Hrb. injection Hra as Hra. injection Hrb as Hrb. rewrite Hra in Hrb.
    assert (Hhead : forall br body, ((br = L /\ body = [105; 110; 102]) \/ exists n e, number_text body n e /\
       ((br = 0 /\ (decimal n e == 0)%Q) \/ (finite_bits F br /\ exists s j, shortest (of_bits F br) s j /\ (decimal n e == decimal s j)%Q))) ->
       exists c r, body = c :: r /\ c <> 45).
    { intros br body [[_ ->]|(n & e & Hnt & _)]; [by eexists _, _|].
      destruct (number_text_head _ _ _ Hnt) as (c & r & -> & Hc). eexists _, _. split; [done|lia]. }
    destruct (Hhead _ _ Hca) as (c1 & r1 & Hc1 & Hn1). destruct (Hhead _ _ Hcb) as (c2 & r2 & Hc2 & Hn2).
    assert (Hsame : (2 ^ (W - 1) <=? a) = (2 ^ (W - 1) <=? b) /\ ba = bb).
    { subst ba bb. destruct (2 ^ (W - 1) <=? a), (2 ^ (W - 1) <=? b); cbn in Hrb; try (by simplify_eq). }
    destruct Hsame as [Hs <-]. clear Hrb Hra Hta Htb Hhead Hchar Hc1 Hc2.
    assert (H2 : 2 ^ W = 2 * 2 ^ (W - 1)) by (replace W with (1 + (W - 1)) at 1 by lia; rewrite Z.pow_add_r by lia; lia).
    pose proof (Z.pow_pos_nonneg 2 (W - 1) ltac:(lia) ltac:(lia)) as Hp.
    assert (Hback : forall br, 0 <= br < 2 ^ W -> br = br mod 2 ^ (W - 1) + (if 2 ^ (W - 1) <=? br then 2 ^ (W - 1) else 0)).
    { intros br Hbr. destruct (Z.leb_spec (2 ^ (W - 1)) br) as [H|H].
      - assert (br mod 2 ^ (W - 1) = br - 2 ^ (W - 1)) as -> by (symmetry; apply Z.mod_unique with 1; lia). lia.
      - rewrite Z.mod_small by lia. lia. }
    rewrite (Hback a Ha), (Hback b Hb), Hs. f_equal.
    assert (Hinf : forall n e, ~ number_text [105; 110; 102] n e).
    { intros n e Hnt. destruct (number_text_head _ _ _ Hnt) as (c & r & [= <- _] & Hc). lia. }
    assert (Hpos : forall m s j, shortest (of_bits F m) s j -> (0 < decimal s j)%Q).
    { intros m s j (H0 & _). unfold decimal. apply Qmult_lt_0_compat; [|apply p10_pos]. change 0%Q with (inject_Z 0). by rewrite <- Zlt_Qlt. }
    destruct Hca as [[Hla ->]|(n & e & Hnt & Hca)].
    - destruct Hcb as [[Hlb _]|(n & e & Hnt & _)]; [congruence|by apply Hinf in Hnt].
    - destruct Hcb as [[_ ->]|(n' & e' & Hnt' & Hcb)]; [by apply Hinf in Hnt|].
      destruct (number_text_unique _ _ _ _ _ Hnt Hnt') as [<- <-].
      destruct Hca as [[Hma Hda]|(Hfa & s & j & Hsa & Hda)], Hcb as [[Hmb Hdb]|(Hfb & s' & j' & Hsb & Hdb)].
      + congruence.
      + exfalso. pose proof (Hpos _ _ _ Hsb). rewrite <- Hdb, Hda in H. by apply Qlt_irrefl in H.
      + exfalso. pose proof (Hpos _ _ _ Hsa). rewrite <- Hda, Hdb in H. by apply Qlt_irrefl in H.
      + apply (shortest_apart F _ _ s j s' j'); try done; [lia|by apply Hshort..|]. by rewrite <- Hda, <- Hdb.
  Qed.
End default.

Lemma to_decimal_zero : to_decimal_double 0 = Ok (0, 0) /\ to_decimal_float 0 = Ok (0, 0).
Proof. done. Qed.

(** The two formats. *)
Lemma double_side : (carrier_bits float_info_double = 32 \/ carrier_bits float_info_double = 64) /\
  prec binary64 = num_significand_bits float_info_double + 1 /\ 1 <= num_significand_bits float_info_double /\
  carrier_bits float_info_double = 1 + exponent_bits float_info_double + num_significand_bits float_info_double /\
  emax binary64 - emin binary64 + 2 = 2 ^ exponent_bits float_info_double - 1 /\ 1 <= exponent_bits float_info_double /\
  0 < 17 /\ 2 ^ prec binary64 < 10 ^ (17 - 1) /\ 10 ^ 17 <= 2 ^ carrier_bits float_info_double /\ 0 < 325 <= 9000 /\
  0 <= emax binary64 /\ emin binary64 <= 1 /\ 2 ^ (prec binary64 + emax binary64) <= 10 ^ 325 /\
  2 ^ (1 - emin binary64) <= 10 ^ 325.
Proof. split; [by right|]. split_and!; vm_compute; done. Qed.
Lemma float_side : (carrier_bits float_info_float = 32 \/ carrier_bits float_info_float = 64) /\
  prec binary32 = num_significand_bits float_info_float + 1 /\ 1 <= num_significand_bits float_info_float /\
  carrier_bits float_info_float = 1 + exponent_bits float_info_float + num_significand_bits float_info_float /\
  emax binary32 - emin binary32 + 2 = 2 ^ exponent_bits float_info_float - 1 /\ 1 <= exponent_bits float_info_float /\
  0 < 9 /\ 2 ^ prec binary32 < 10 ^ (9 - 1) /\ 10 ^ 9 <= 2 ^ carrier_bits float_info_float /\ 0 < 60 <= 9000 /\
  0 <= emax binary32 /\ emin binary32 <= 1 /\ 2 ^ (prec binary32 + emax binary32) <= 10 ^ 60 /\
  2 ^ (1 - emin binary32) <= 10 ^ 60.
Proof. split; [by left|]. split_and!; vm_compute; done. Qed.
Lemma double_finite E out br : 0 <= br < 2 ^ 64 -> finite_bits binary64 (br mod 2 ^ 63) ->
  valid (of_bits binary64 (br mod 2 ^ 63)) /\
  exists s j ds text, shortest (of_bits binary64 (br mod 2 ^ 63)) s j /\ 0 < s < 10 ^ 17 /\
    numeral 10 false s (digit_text ds) /\ general_text ds j text /\
    write_double E out br = Ok (out ++ minus_text (2 ^ 63 <=? br) ++ text) /\
    exists n e, number_text text n e /\ (decimal n e == decimal s j)%Q.
Proof.
  destruct double_side as (H1 & H2 & H3 & H4 & H5 & H6 & H7 & H8 & H9 & H10 & H11 & H12 & H13 & H14).
  exact (default_finite float_info_double accessor_double binary64 17 325 H1 H2 H3 H4 H5 H6 H7 H8 H9 H10 H11 H12 H13 H14 E out br
    to_decimal_double_shortest).
Qed.
Lemma float_finite E out br : 0 <= br < 2 ^ 32 -> finite_bits binary32 (br mod 2 ^ 31) ->
  valid (of_bits binary32 (br mod 2 ^ 31)) /\
  exists s j ds text, shortest (of_bits binary32 (br mod 2 ^ 31)) s j /\ 0 < s < 10 ^ 9 /\
    numeral 10 false s (digit_text ds) /\ general_text ds j text /\
    write_float E out br = Ok (out ++ minus_text (2 ^ 31 <=? br) ++ text) /\
    exists n e, number_text text n e /\ (decimal n e == decimal s j)%Q.
Proof.
  destruct float_side as (H1 & H2 & H3 & H4 & H5 & H6 & H7 & H8 & H9 & H10 & H11 & H12 & H13 & H14).
  exact (default_finite float_info_float accessor_float binary32 9 60 H1 H2 H3 H4 H5 H6 H7 H8 H9 H10 H11 H12 H13 H14 E out br
    to_decimal_float_shortest).
Qed.
Lemma double_zero E out br : 0 <= br < 2 ^ 64 -> br mod 2 ^ 63 = 0 ->
  write_double E out br = Ok (out ++ minus_text (2 ^ 63 <=? br) ++ [48]).
Proof.
  destruct double_side as (H1 & H2 & H3 & H4 & H5 & H6 & H7 & H8 & H9 & H10 & H11 & H12 & H13 & H14). intros Hb Hz.
  exact (default_zero float_info_double accessor_double binary64 17 325 H1 H2 H3 H4 H5 H6 H7 H8 H9 H10 H11 H12 H13 H14 E out br
    Hb Hz (proj1 to_decimal_zero)).
Qed.
Lemma float_zero E out br : 0 <= br < 2 ^ 32 -> br mod 2 ^ 31 = 0 ->
  write_float E out br = Ok (out ++ minus_text (2 ^ 31 <=? br) ++ [48]).
Proof.
  destruct float_side as (H1 & H2 & H3 & H4 & H5 & H6 & H7 & H8 & H9 & H10 & H11 & H12 & H13 & H14). intros Hb Hz.
  exact (default_zero float_info_float accessor_float binary32 9 60 H1 H2 H3 H4 H5 H6 H7 H8 H9 H10 H11 H12 H13 H14 E out br
    Hb Hz (proj2 to_decimal_zero)).
Qed.
Lemma double_nonfinite E out br : 0 <= br < 2 ^ 64 -> inf64 <= br mod 2 ^ 63 ->
  write_double E out br = Ok (out ++ minus_text (2 ^ 63 <=? br) ++
    (if decide (br mod 2 ^ 63 = inf64) then [105; 110; 102] else [110; 97; 110])).
Proof.
  destruct double_side as (H1 & H2 & H3 & H4 & H5 & H6 & H7 & H8 & H9 & H10 & H11 & H12 & H13 & H14).
  exact (default_nonfinite float_info_double accessor_double binary64 17 325 H1 H2 H3 H4 H5 H6 H7 H8 H9 H10 H11 H12 H13 H14 E out br).
Qed.
Lemma float_nonfinite E out br : 0 <= br < 2 ^ 32 -> inf32 <= br mod 2 ^ 31 ->
  write_float E out br = Ok (out ++ minus_text (2 ^ 31 <=? br) ++
    (if decide (br mod 2 ^ 31 = inf32) then [105; 110; 102] else [110; 97; 110])).
Proof.
  destruct float_side as (H1 & H2 & H3 & H4 & H5 & H6 & H7 & H8 & H9 & H10 & H11 & H12 & H13 & H14).
  exact (default_nonfinite float_info_float accessor_float binary32 9 60 H1 H2 H3 H4 H5 H6 H7 H8 H9 H10 H11 H12 H13 H14 E out br).
Qed.
Lemma double_apart E a b t : 0 <= a < 2 ^ 64 -> 0 <= b < 2 ^ 64 -> a mod 2 ^ 63 <= inf64 -> b mod 2 ^ 63 <= inf64 ->
  write_double E [] a = Ok t -> write_double E [] b = Ok t -> a = b.
Proof.
  destruct double_side as (H1 & H2 & H3 & H4 & H5 & H6 & H7 & H8 & H9 & H10 & H11 & H12 & H13 & H14).
  exact (default_apart float_info_double accessor_double binary64 17 325 H1 H2 H3 H4 H5 H6 H7 H8 H9 H10 H11 H12 H13 H14 E a b t
    to_decimal_double_shortest (proj1 to_decimal_zero)).
Qed.
Lemma float_apart E a b t : 0 <= a < 2 ^ 32 -> 0 <= b < 2 ^ 32 -> a mod 2 ^ 31 <= inf32 -> b mod 2 ^ 31 <= inf32 ->
  write_float E [] a = Ok t -> write_float E [] b = Ok t -> a = b.
Proof.
  destruct float_side as (H1 & H2 & H3 & H4 & H5 & H6 & H7 & H8 & H9 & H10 & H11 & H12 & H13 & H14).
  exact (default_apart float_info_float accessor_float binary32 9 60 H1 H2 H3 H4 H5 H6 H7 H8 H9 H10 H11 H12 H13 H14 E a b t
    to_decimal_float_shortest (proj2 to_decimal_zero)).
Qed.
