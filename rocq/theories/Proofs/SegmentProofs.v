(** The digits of the first segment are printed and rounded as they should be. *)
From Verif Require Import Base.Cpp Model.FmtInt Model.Dragonbox Model.Bigint Model.FloatDigits Spec.FormatSpec Spec.FloatText
  Proofs.FmtIntProofs Proofs.DragonboxArith.
Set Default Proof Using "Type".
Local Open Scope Z_scope.

(** The last [n] decimal digits of a number. *)
Fixpoint decs (n : nat) (x : Z) : list Z :=
  match n with O => [] | S n => decs n (x / 10) ++ [x mod 10] end.
Definition chars (n : nat) (x : Z) : list Z := (fun d => 48 + d) <$> decs n x.

Lemma decs_length n x : length (decs n x) = n.
Proof. revert x. induction n as [|n IH]; intros x; [done|]. cbn. rewrite app_length, IH. cbn. lia. Qed.
Lemma chars_length n x : length (chars n x) = n.
Proof. unfold chars. by rewrite fmap_length, decs_length. Qed.
Lemma decs_digits n x : all_digits (decs n x).
Proof.
  revert x. induction n as [|n IH]; intros x; [by constructor|]. cbn. apply Forall_app. split; [apply IH|].
  apply Forall_singleton. apply Z.mod_pos_bound. lia.
Qed.
Lemma chars_text n x : chars n x = digit_text (decs n x).
Proof.
  unfold chars, digit_text. apply list_fmap_ext. intros i d Hd. pose proof (decs_digits n x) as Hf.
  pose proof (Forall_lookup_1 _ _ _ _ Hf Hd) as Hb. cbn in Hb. unfold digit_char. by rewrite decide_True by lia.
Qed.
Lemma chars_snoc n x d : 0 <= d < 10 -> chars (S n) (x * 10 + d) = chars n x ++ [48 + d].
Proof.
  intros Hd. unfold chars. cbn [decs]. rewrite fmap_app. cbn.
  rewrite Z.div_add_l, (Z.div_small d), Z.add_0_r by lia.
  replace (x * 10 + d) with (d + x * 10) by lia. rewrite Z.mod_add, Z.mod_small by lia. done.
Qed.
Lemma chars_last n x : chars (S n) x = chars n (x / 10) ++ [48 + x mod 10].
Proof. unfold chars. cbn [decs]. by rewrite fmap_app. Qed.
Lemma chars_app n m x y : 0 <= y < 10 ^ Z.of_nat m -> chars n x ++ chars m y = chars (n + m) (x * 10 ^ Z.of_nat m + y).
Proof.
  revert y. induction m as [|m IH]; intros y Hy.
  - cbn in Hy. rewrite app_nil_r, Nat.add_0_r. f_equal. change (10 ^ Z.of_nat 0) with 1. lia.
  - rewrite Nat2Z.inj_succ, Z.pow_succ_r in Hy by lia.
    pose proof (Z.div_mod y 10 ltac:(lia)) as Hdm. pose proof (Z.mod_pos_bound y 10 ltac:(lia)) as Hm.
    replace (chars (S m) y) with (chars m (y / 10) ++ [48 + y mod 10]).
    2: { rewrite <- chars_snoc by done. f_equal. lia. }
    rewrite app_assoc, IH by lia. replace (n + S m)%nat with (S (n + m)) by lia.
    rewrite <- chars_snoc by done. f_equal. rewrite Nat2Z.inj_succ, Z.pow_succ_r by lia. lia.
Qed.
Lemma chars_1 d : 0 <= d < 10 -> chars 1 d = [48 + d].
Proof. intros. unfold chars. cbn. by rewrite Z.mod_small. Qed.
Lemma chars_2 d : 0 <= d < 100 -> chars 2 d = [48 + d / 10; 48 + d mod 10].
Proof. intros. unfold chars. cbn. rewrite (Z.mod_small (d / 10)); [done|]. split; [apply Z.div_pos; lia|]. apply Z.div_lt_upper_bound; lia. Qed.
Lemma digits2_chars d : 0 <= d < 100 -> digits2 d = Ok (chars 2 d).
Proof.
  intros Hd. rewrite digits2_ok by done. rewrite chars_text. unfold digit_text. cbn. rewrite (Z.mod_small (d / 10)); [done|].
  split; [apply Z.div_pos; lia|]. apply Z.div_lt_upper_bound; lia.
Qed.
Lemma number_decs n x : 0 <= x -> number 10 (decs n x) = x mod 10 ^ Z.of_nat n.
Proof.
  revert x. induction n as [|n IH]; intros x Hx.
  - cbn. by rewrite Z.mod_1_r.
  - cbn [decs]. unfold number. rewrite fold_left_app. cbn [fold_left]. fold (number 10 (decs n (x / 10))).
    rewrite IH by (apply Z.div_pos; lia). rewrite Nat2Z.inj_succ, Z.pow_succ_r by lia.
    rewrite Z.rem_mul_r by lia. lia.
Qed.

(** ** A subsegment *)
Section subsegment.
  Context (sub : Z) (Hsub : 0 <= sub < 10 ^ 9).
  (** After [i] digits: they are the first ones, and [prod] has the others, with an error [eps]. *)
  Definition printed (i : Z) (eps : Z) (buf : list Z) (prod digits : Z) : Prop :=
    buf = chars (Z.to_nat i) (sub / 10 ^ (9 - i)) /\
    prod mod 2 ^ 32 * 10 ^ (9 - i) = sub mod 10 ^ (9 - i) * 2 ^ 32 + eps /\
    Z.odd digits = Z.odd (sub / 10 ^ (9 - i)).

  (** Splitting off the integral part. *)
  Lemma split_prod prod s m eps : 0 <= m -> 0 <= s -> 0 < eps < 2 ^ 32 -> prod * 10 ^ m = s * 2 ^ 32 + eps ->
    prod / 2 ^ 32 = s / 10 ^ m /\ prod mod 2 ^ 32 * 10 ^ m = s mod 10 ^ m * 2 ^ 32 + eps.
  Proof.
    intros Hm Hs Heps Heq. assert (Hp : 0 < 10 ^ m) by (apply Z.pow_pos_nonneg; lia).
    set (T := 10 ^ m) in *. pose proof (Z.div_mod s T ltac:(lia)) as Hds. pose proof (Z.mod_pos_bound s T Hp) as Hms.
    pose proof (Z.div_mod prod (2 ^ 32) ltac:(lia)) as Hdp. pose proof (Z.mod_pos_bound prod (2 ^ 32) ltac:(lia)) as Hmp.
    change (2 ^ 32) with 4294967296 in *.
    assert (Hq : prod / 4294967296 = s / T).
    { symmetry. apply (Z.div_unique prod 4294967296 (s / T) (prod - 4294967296 * (s / T))); [left|lia].
      split; [|apply (Z.mul_lt_mono_pos_r T); [done|]]; nia. }
    split; [done|]. rewrite Hq in Hdp. nia.
  Qed.

  Lemma print_first n : 0 < n <= 9 -> exists eps buf prod digits, 0 < eps < 2 ^ 32 /\
    (if decide (Z.land n 1 <> 0) then
      let prod := Z.shiftr (wrap 64 (sub * 720575941)) 24 + 1 in
      let digits := wrap 32 (Z.shiftr prod 32) in
      Ok ([48 + digits], prod, digits)
    else
      let prod := Z.shiftr (wrap 64 (sub * 450359963)) 20 + 1 in
      let digits := wrap 32 (Z.shiftr prod 32) in
      let* two := digits2 digits in Ok (two, prod, digits)) = Ok (buf, prod, digits) /\
    printed (if decide (Z.land n 1 <> 0) then 1 else 2) eps buf prod digits.
  Proof using Hsub.
    intros Hn. cbv zeta. destruct (decide (Z.land n 1 <> 0)) as [Hodd|Hodd].
    - set (prod := Z.shiftr (wrap 64 (sub * 720575941)) 24 + 1).
      assert (Hprod : prod = sub * 720575941 / 2 ^ 24 + 1).
      { unfold prod. rewrite wrap_id by lia. by rewrite Z.shiftr_div_pow2 by lia. }
      pose proof (Z.div_mod (sub * 720575941) (2 ^ 24) ltac:(lia)) as Hdm.
      pose proof (Z.mod_pos_bound (sub * 720575941) (2 ^ 24) ltac:(lia)) as Hmb.
      set (eps := prod * 10 ^ 8 - sub * 2 ^ 32). assert (Heps : 0 < eps < 2 ^ 32) by (unfold eps; lia).
      destruct (split_prod prod sub 8 eps ltac:(lia) ltac:(lia) Heps ltac:(unfold eps; lia)) as [Hq Hr].
      assert (Hb : 0 <= sub / 10 ^ 8 < 10).
      { split; [apply Z.div_pos; lia|apply Z.div_lt_upper_bound; lia]. }
      assert (Hdig : wrap 32 (Z.shiftr prod 32) = sub / 10 ^ 8).
      { rewrite Z.shiftr_div_pow2, Hq by lia. apply wrap_id. lia. }
      exists eps, [48 + wrap 32 (Z.shiftr prod 32)], prod, (wrap 32 (Z.shiftr prod 32)).
      split; [done|]. split; [done|]. unfold printed. rewrite Hdig. split_and!; [|done|done].
      change (9 - 1) with 8. change (Z.to_nat 1) with 1%nat. by rewrite chars_1.
    - set (prod := Z.shiftr (wrap 64 (sub * 450359963)) 20 + 1).
      assert (Hprod : prod = sub * 450359963 / 2 ^ 20 + 1).
      { unfold prod. rewrite wrap_id by lia. by rewrite Z.shiftr_div_pow2 by lia. }
      pose proof (Z.div_mod (sub * 450359963) (2 ^ 20) ltac:(lia)) as Hdm.
      pose proof (Z.mod_pos_bound (sub * 450359963) (2 ^ 20) ltac:(lia)) as Hmb.
      set (eps := prod * 10 ^ 7 - sub * 2 ^ 32). assert (Heps : 0 < eps < 2 ^ 32) by (unfold eps; lia).
      destruct (split_prod prod sub 7 eps ltac:(lia) ltac:(lia) Heps ltac:(unfold eps; lia)) as [Hq Hr].
      assert (Hb : 0 <= sub / 10 ^ 7 < 100).
      { split; [apply Z.div_pos; lia|apply Z.div_lt_upper_bound; lia]. }
      assert (Hdig : wrap 32 (Z.shiftr prod 32) = sub / 10 ^ 7).
      { rewrite Z.shiftr_div_pow2, Hq by lia. apply wrap_id. lia. }
      rewrite Hdig, digits2_chars by done. cbn [bind].
      exists eps, (chars 2 (sub / 10 ^ 7)), prod, (sub / 10 ^ 7). done.
  Qed.

  Lemma print_subsegment_ok n : 0 < n <= 9 -> exists eps, 0 < eps < 2 ^ 32 /\
    wp (print_subsegment sub n) (fun '(buf, prod, digits) => printed n eps buf prod digits).
  Proof using Hsub.
    intros Hn. destruct (print_first n Hn) as (eps & buf0 & prod0 & digits0 & Heps & Hfirst & Hp). exists eps. split; [done|].
    cbv zeta in Hfirst. unfold print_subsegment. rewrite Hfirst. cbn [bind].
    set (i0 := if decide (Z.land n 1 <> 0) then 1 else 2) in *.
    assert (Hi0 : 0 < i0 <= n /\ (n - i0) mod 2 = 0).
    { unfold i0. rewrite land_1. pose proof (Z.div_mod n 2 ltac:(lia)). pose proof (Z.mod_pos_bound n 2 ltac:(lia)).
      destruct (decide (n mod 2 <> 0)) as [Hd|Hd].
      - split; [lia|]. replace (n - 1) with (n / 2 * 2) by lia. apply Z.mod_mul. lia.
      - assert (n mod 2 = 0) by lia. split; [lia|]. replace (n - 2) with ((n / 2 - 1) * 2) by lia. apply Z.mod_mul. lia. }
    apply (wp_loop (fun '(buf, prod, digits) => exists i, 0 < i <= n /\ (n - i) mod 2 = 0 /\ printed i eps buf prod digits)
      (fun '(buf, _, _) => (9 - length buf)%nat / 2)%nat).
    - destruct Hp as (-> & _). rewrite chars_length. unfold i0 in *. destruct (decide _); vm_compute; lia.
    - exists i0. split; [lia|]. split; [lia|done].
    - intros [[buf prod] digits] (i & Hi & Hpar & Hpr). pose proof Hpr as (Hbuf & Hprod & Hdig).
      assert (Hlen : Z.of_nat (length buf) = i) by (rewrite Hbuf, chars_length; lia). rewrite Hlen.
      destruct (decide (i < n)) as [Hlt|Hge].
      + assert (Hi2 : i + 2 <= n).
        { pose proof (Z.div_mod (n - i) 2 ltac:(lia)). lia. }
        pose proof (Z.mod_pos_bound prod (2 ^ 32) ltac:(lia)) as Hmb.
        rewrite (wrap_mod 32 prod) by lia. rewrite (wrap_id 64) by lia.
        set (f := prod mod 2 ^ 32) in *. set (r := sub mod 10 ^ (9 - i)) in *.
        assert (H10 : 10 ^ (9 - i) = 100 * 10 ^ (7 - i)).
        { replace (9 - i) with (2 + (7 - i)) by lia. rewrite Z.pow_add_r by lia. done. }
        assert (Hpos : 0 < 10 ^ (7 - i)) by (apply Z.pow_pos_nonneg; lia).
        assert (Hr : 0 <= r < 10 ^ (9 - i)) by (apply Z.mod_pos_bound; lia).
        destruct (split_prod (f * 100) r (7 - i) eps ltac:(lia) ltac:(lia) Heps ltac:(lia)) as [Hq Hr2].
        assert (Hb : 0 <= r / 10 ^ (7 - i) < 100).
        { split; [apply Z.div_pos; lia|apply Z.div_lt_upper_bound; lia]. }
        assert (Hdig2 : wrap 32 (Z.shiftr (f * 100) 32) = r / 10 ^ (7 - i)).
        { rewrite Z.shiftr_div_pow2, Hq by lia. apply wrap_id. lia. }
        assert (Hsplit : sub / 10 ^ (7 - i) = sub / 10 ^ (9 - i) * 100 + r / 10 ^ (7 - i)).
        { unfold r. pose proof (Z.div_mod sub (10 ^ (9 - i)) ltac:(lia)) as Hd.
          set (q := sub / 10 ^ (9 - i)) in *. fold r in Hd |- *.
          replace sub with (q * 100 * 10 ^ (7 - i) + r) by lia. rewrite Z.div_add_l by lia. done. }
        rewrite Hdig2, digits2_chars by done. cbn [bind]. apply wp_ok.
        assert (Hc : buf ++ chars 2 (r / 10 ^ (7 - i)) = chars (Z.to_nat (i + 2)) (sub / 10 ^ (7 - i))).
        { rewrite Hbuf, chars_app by (change (10 ^ Z.of_nat 2) with 100; done). change (10 ^ Z.of_nat 2) with 100.
          rewrite Hsplit. f_equal. lia. }
        split.
        * exists (i + 2). replace (n - (i + 2)) with (n - i + -1 * 2) by lia. rewrite Z.mod_add by lia.
          split_and!; try lia. unfold printed. replace (9 - (i + 2)) with (7 - i) by lia.
          split_and!; [done| |].
          -- rewrite Hr2. f_equal. f_equal. unfold r. rewrite H10, (Z.mul_comm 100). apply mod_mod_mul; lia.
          -- rewrite Hsplit. rewrite Z.odd_add, Z.odd_mul. change (Z.odd 100) with false.
             rewrite andb_false_r. by rewrite xorb_false_l.
        * rewrite app_length, chars_length.
          replace (9 - length buf)%nat with ((9 - (length buf + 2)) + 1 * 2)%nat by lia. rewrite Nat.div_add by lia. lia.
      + apply wp_ok. by replace n with i by lia.
  Qed.

  (** Rounding inside: [r] are the digits that are not printed. *)
  Lemma round_inside_ok n eps buf prod digits more has : 0 < n < 9 -> 0 < eps < 2 ^ 32 -> printed n eps buf prod digits ->
    let T := 10 ^ (9 - n) in let r := sub mod T in
    round_inside prod digits n more has
    = Ok (bool_decide (T < 2 * r \/ (2 * r = T /\ (Z.odd (sub / T) || more || has) = true))).
  Proof using Hsub.
    intros Hn Heps (_ & Hprod & Hdig) T r. unfold round_inside. rewrite wrap_mod by lia.
    pose proof (Z.mod_pos_bound prod (2 ^ 32) ltac:(lia)) as Hmb. set (f := prod mod 2 ^ 32) in *. fold T r in Hprod, Hdig.
    assert (HT : exists t th, T = 2 * t /\ fractional_part_rounding_thresholds (8 - n) = Ok th /\
      (th - 1) * T < 2 ^ 31 * T + 2 ^ 32 <= th * T).
    { assert (n = 1 \/ n = 2 \/ n = 3 \/ n = 4 \/ n = 5 \/ n = 6 \/ n = 7 \/ n = 8) as Hc by lia.
      unfold T. clear -Hc. destruct Hc as [->|[->|[->|[->|[->|[->|[->| ->]]]]]]];
        [exists (50000000), 2147483691
        |exists (5000000), 2147484078
        |exists (500000), 2147487943
        |exists (50000), 2147526598
        |exists (5000), 2147913145
        |exists (500), 2151778616
        |exists (50), 2190433321
        |exists (5), 2576980378]; (split; [done|]; split; [done|]; vm_compute; split; done). }
    destruct HT as (t & th & HT & -> & Hth1 & Hth2). cbn [bind]. f_equal.
    assert (HTpos : 0 < T) by (apply Z.pow_pos_nonneg; lia).
    assert (Htop : th <= f <-> t + 1 <= r).
    { rewrite HT in *. split; intros H.
      - assert (th * (2 * t) <= f * (2 * t)) by (apply Z.mul_le_mono_nonneg_r; lia). lia.
      - assert ((th - 1) * (2 * t) < f * (2 * t)) by lia. apply Z.mul_lt_mono_pos_r in H0; lia. }
    assert (Hhalf : 2 ^ 31 <= f <-> t <= r).
    { rewrite HT in *. split; intros H.
      - assert (2 ^ 31 * (2 * t) <= f * (2 * t)) by (apply Z.mul_le_mono_nonneg_r; lia). lia.
      - assert ((2 ^ 31 - 1) * (2 * t) < f * (2 * t)) by lia. apply Z.mul_lt_mono_pos_r in H0; lia. }
    assert (Hbit : Z.shiftr f 31 = if decide (t <= r) then 1 else 0).
    { rewrite Z.shiftr_div_pow2 by lia. case_decide as Hd.
      - symmetry. apply (Z.div_unique f (2 ^ 31) 1 (f - 2 ^ 31)); lia.
      - apply Z.div_small. lia. }
    rewrite Hbit.
    assert (Hlor : Z.lor (Z.lor (Z.land digits 1) (Z.b2z more)) (Z.b2z has) = Z.b2z (Z.odd (sub / T) || more || has)).
    { rewrite land_1, Zmod_odd, Hdig. by destruct (Z.odd (sub / T)), more, has. }
    rewrite Hlor. set (any := Z.odd (sub / T) || more || has).
    destruct (Z.leb_spec th f) as [Hle|Hgt]; cbn [orb].
    - symmetry. apply bool_decide_eq_true. left. lia.
    - destruct (decide (t <= r)).
      + assert (r = t) by lia. destruct any; cbn; symmetry.
        * apply bool_decide_eq_true. right. lia.
        * apply bool_decide_eq_false. intros [|[_ ?]]; [lia|done].
      + cbn. symmetry. apply bool_decide_eq_false. lia.
  Qed.
End subsegment.

(** ** The carry *)
Lemma insert_mid {A} (l : list A) x y r n : n = length l -> <[n := y]> (l ++ x :: r) = l ++ y :: r.
Proof. intros ->. rewrite <- (Nat.add_0_r (length l)). by rewrite insert_app_r. Qed.

Lemma carry_loop n x c rest fuel : 0 <= x < 10 ^ Z.of_nat n -> 0 < c <= 10 -> (n < fuel)%nat ->
  exists buf i, loop fuel (fun '(buf, i) =>
    if decide (0 < i)%nat then
      let* c := get buf i in
      if decide (57 < c) then
        let* buf := put buf i 48 in
        let* d := get buf (i - 1) in
        let* buf := put buf (i - 1) (d + 1) in Ok (inl (buf, (i - 1)%nat))
      else Ok (inr (buf, i))
    else Ok (inr (buf, i))) (chars n x ++ 48 + c :: rest, n) = Ok (buf, i) /\
  buf = (if decide (x * 10 + c < 10 ^ (Z.of_nat n + 1)) then chars (S n) (x * 10 + c) else 58 :: replicate n 48) ++ rest.
Proof.
  revert x c rest fuel. induction n as [|n IH]; intros x c rest fuel Hx Hc Hf; destruct fuel as [|fuel]; try lia; cbn [loop].
  - rewrite decide_False by lia. cbn [bind]. eexists _, _. split; [done|]. assert (x = 0) as -> by (cbn in Hx; lia).
    change (10 ^ (Z.of_nat 0 + 1)) with 10. case_decide.
    + rewrite Z.mul_0_l, Z.add_0_l, chars_1 by lia. done.
    + assert (c = 10) as -> by lia. done.
  - rewrite decide_True by lia. unfold get at 1. rewrite lookup_app_r by (rewrite chars_length; lia).
    rewrite chars_length, Nat.sub_diag. cbn [lookup list_lookup bind].
    assert (H10 : 10 ^ (Z.of_nat (S n) + 1) = 10 * 10 ^ Z.of_nat (S n)) by (rewrite Z.pow_add_r by lia; lia).
    destruct (decide (57 < 48 + c)) as [Hgt|Hle].
    + assert (c = 10) as -> by lia. unfold put at 1. rewrite decide_True by (rewrite app_length, chars_length; cbn; lia).
      cbn [bind]. rewrite insert_mid by (by rewrite chars_length).
      pose proof (Z.div_mod x 10 ltac:(lia)) as Hdm. pose proof (Z.mod_pos_bound x 10 ltac:(lia)) as Hm.
      rewrite (chars_last n x), <- app_assoc. cbn [app].
      replace (S n - 1)%nat with n by lia.
      unfold get. rewrite lookup_app_r by (rewrite chars_length; lia). rewrite chars_length, Nat.sub_diag.
      cbn [lookup list_lookup bind].
      unfold put. rewrite decide_True by (rewrite app_length, chars_length; cbn; lia). cbn [bind].
      rewrite insert_mid by (by rewrite chars_length).
      rewrite Nat2Z.inj_succ, Z.pow_succ_r in Hx by lia.
      replace (48 + x mod 10 + 1) with (48 + (x mod 10 + 1)) by lia.
      destruct (IH (x / 10) (x mod 10 + 1) (48 :: rest) fuel ltac:(lia) ltac:(lia) ltac:(lia)) as (buf & i & Hl & Hbuf).
      exists buf, i. split; [done|]. rewrite Hbuf.
      replace (x / 10 * 10 + (x mod 10 + 1)) with (x + 1) by lia.
      replace (10 ^ (Z.of_nat n + 1)) with (10 ^ Z.of_nat (S n)) by (f_equal; lia).
      destruct (decide (x + 1 < 10 ^ Z.of_nat (S n))); [rewrite decide_True by lia|rewrite decide_False by lia].
      * replace (x * 10 + 10) with ((x + 1) * 10 + 0) by lia. rewrite (chars_snoc (S n)) by lia.
        rewrite <- app_assoc. done.
      * cbn [app]. f_equal. replace (S n) with (n + 1)%nat by lia. rewrite replicate_add, <- app_assoc. done.
    + cbn [bind]. eexists _, _. split; [done|]. rewrite decide_True by lia. rewrite (chars_snoc (S n)) by lia.
      rewrite <- app_assoc. done.
Qed.

Lemma carry_up_ok n x c : 0 <= x < 10 ^ Z.of_nat n -> 0 < c <= 10 ->
  carry_up (chars n x ++ [48 + c])
  = Ok (if decide (x * 10 + c < 10 ^ (Z.of_nat n + 1)) then chars (S n) (x * 10 + c) else 58 :: replicate n 48).
Proof.
  intros Hx Hc. unfold carry_up. rewrite app_length, chars_length. cbn [length].
  replace (n + 1 - 1)%nat with n by lia.
  destruct (carry_loop n x c [] (S (n + 1)) Hx Hc ltac:(lia)) as (buf & i & -> & ->). cbn [bind]. by rewrite app_nil_r.
Qed.

(** ** The segment *)
(** [d] with [p] digits, or the next power of ten. *)
Definition rounded_chars (fixed : bool) (p : Z) (d exp : Z) : list Z * Z :=
  if decide (d < 10 ^ p) then (chars (Z.to_nat p) d, exp)
  else if fixed then (49 :: replicate (Z.to_nat p) 48, exp)
  else (49 :: replicate (Z.to_nat (p - 1)) 48, exp + 1).
(** Whether the rest makes [d] go up. *)
Definition goes_up (d r T : Z) (more : bool) : bool := bool_decide (T < 2 * r \/ (2 * r = T /\ (Z.odd d || more) = true)).

Lemma chars_split p d : 0 < p -> chars (Z.to_nat p) d = chars (Z.to_nat (p - 1)) (d / 10) ++ [48 + d mod 10].
Proof.
  intros Hp. replace (Z.to_nat p) with (S (Z.to_nat (p - 1))) by lia.
  pose proof (Z.div_mod d 10 ltac:(lia)). rewrite <- chars_snoc by (apply Z.mod_pos_bound; lia). f_equal. lia.
Qed.

Lemma bump_ok (fixed : bool) p d exp : 0 < p -> 0 <= d < 10 ^ p ->
  (let* last := get (chars (Z.to_nat p) d) (Z.to_nat (p - 1)) in
   let* buf := put (chars (Z.to_nat p) d) (Z.to_nat (p - 1)) (last + 1) in
   let* buf := carry_up buf in
   let* b0 := get buf 0 in
   if decide (57 < b0) then
     let* buf := put buf 0 49 in
     if fixed then Ok (buf ++ [48], exp) else Ok (buf, exp + 1)
   else Ok (buf, exp)) = Ok (rounded_chars fixed p (d + 1) exp).
Proof.
  intros Hp Hd. rewrite chars_split by done. set (n := Z.to_nat (p - 1)). set (x := d / 10). set (y := d mod 10).
  pose proof (Z.div_mod d 10 ltac:(lia)) as Hdm. pose proof (Z.mod_pos_bound d 10 ltac:(lia)) as Hy. fold x y in Hdm, Hy.
  assert (H10 : 10 ^ p = 10 * 10 ^ (p - 1)) by (rewrite <- Z.pow_succ_r by lia; f_equal; lia).
  assert (Hn : Z.of_nat n = p - 1) by lia.
  assert (Hx : 0 <= x < 10 ^ Z.of_nat n) by (rewrite Hn; lia).
  unfold get at 1. rewrite lookup_app_r, chars_length, Nat.sub_diag by (rewrite chars_length; lia). cbn [lookup list_lookup bind].
  unfold put at 1. rewrite decide_True by (rewrite app_length, chars_length; cbn; lia). cbn [bind].
  rewrite insert_mid by (by rewrite chars_length).
  replace (48 + y + 1) with (48 + (y + 1)) by lia.
  rewrite carry_up_ok by (done || lia). cbn [bind].
  replace (x * 10 + (y + 1)) with (d + 1) by lia. replace (Z.of_nat n + 1) with p by lia.
  unfold rounded_chars. destruct (decide (d + 1 < 10 ^ p)) as [Hlt|Hge].
  - replace (S n) with (Z.to_nat p) by lia.
    assert (H0 : exists c, chars (Z.to_nat p) (d + 1) !! 0%nat = Some c /\ c <= 57).
    { destruct (lookup_lt_is_Some_2 (chars (Z.to_nat p) (d + 1)) 0) as [c Hc]; [rewrite chars_length; lia|].
      exists c. split; [done|]. unfold chars in Hc. rewrite list_lookup_fmap in Hc.
      apply fmap_Some in Hc as (z & Hz & ->). pose proof (Forall_lookup_1 _ _ _ _ (decs_digits _ _) Hz) as Hb. cbn in Hb. lia. }
    destruct H0 as (c & Hc & Hle). unfold get. rewrite Hc. cbn [bind]. by rewrite decide_False by lia.
  - unfold get. cbn [lookup list_lookup bind]. rewrite decide_True by lia.
    unfold put. rewrite decide_True by (cbn; lia). cbn [insert list_insert bind].
    destruct fixed; [|done]. cbn [app]. do 3 f_equal. replace (Z.to_nat p) with (n + 1)%nat by lia.
    by rewrite replicate_add.
Qed.

Lemma segment_digits_ok S more fixed p exp : 10 ^ 18 <= S < 10 ^ 19 -> 0 < p <= 18 ->
  let T := 10 ^ (19 - p) in
  segment_digits S more fixed p exp
  = Ok (rounded_chars fixed p (S / T + Z.b2z (goes_up (S / T) (S mod T) T more)) exp).
Proof.
  intros HS Hp T. unfold segment_digits.
  assert (Hfirst : wrap 32 (Z.shiftr (umul128_upper64 S 7922816251426433760) 32) = S / 10 ^ 10).
  { unfold umul128_upper64. rewrite umul128_of. cbn [u128_of fst]. rewrite Z.shiftr_div_pow2 by lia.
    rewrite pow2_div_div by lia. change (64 + 32) with 96. rewrite (magic_div S _ (10 ^ 10)) by lia.
    apply wrap_id. split; [apply Z.div_pos; lia|apply Z.div_lt_upper_bound; lia]. }
  rewrite Hfirst. set (first := S / 10 ^ 10).
  pose proof (Z.div_mod S (10 ^ 10) ltac:(lia)) as HdmS. pose proof (Z.mod_pos_bound S (10 ^ 10) ltac:(lia)) as HmS.
  fold first in HdmS. set (rest := S mod 10 ^ 10) in *.
  assert (Hfb : 0 <= first < 10 ^ 9) by lia.
  assert (Hrest : wrap 64 (S - wrap 64 (first * 10000000000)) = rest).
  { rewrite (wrap_id 64 (first * 10000000000)) by lia. replace (S - first * 10000000000) with rest by lia. apply wrap_id. lia. }
  rewrite Hrest. set (n := if decide (p > 9) then 9 else p).
  assert (Hn : 0 < n <= 9) by (unfold n; case_decide; lia).
  destruct (print_subsegment_ok first Hfb n Hn) as (eps & Heps & ((buf & prod) & digits) & -> & Hpr). cbn [bind].
  (* what is printed, and the decision *)
  set (D := S / T). set (R := S mod T).
  assert (HT : 0 < T) by (apply Z.pow_pos_nonneg; lia).
  pose proof (Z.div_mod S T ltac:(lia)) as HdmT. pose proof (Z.mod_pos_bound S T HT) as HmT. fold D R in HdmT, HmT.
  assert (HD : 0 <= D < 10 ^ p).
  { split; [apply Z.div_pos; lia|]. apply Z.div_lt_upper_bound; [done|]. unfold T. rewrite <- Z.pow_add_r by lia.
    replace (19 - p + p) with 19 by lia. lia. }
  set (up := goes_up D R T more).
  assert (Hmain : forall buf' r, buf' = chars (Z.to_nat p) D -> r = up ->
    (if r : bool then
      let* last := get buf' (Z.to_nat (p - 1)) in
      let* buf := put buf' (Z.to_nat (p - 1)) (last + 1) in
      let* buf := carry_up buf in
      let* b0 := get buf 0 in
      if decide (57 < b0) then
        let* buf := put buf 0 49 in
        if fixed then Ok (buf ++ [48], exp) else Ok (buf, exp + 1)
      else Ok (buf, exp)
    else Ok (buf', exp)) = Ok (rounded_chars fixed p (D + Z.b2z up) exp)).
  { intros buf' r -> ->. destruct up; cbn [Z.b2z].
    - apply bump_ok; [lia|exact HD].
    - unfold rounded_chars. rewrite Z.add_0_r, decide_True by lia. done. }
  destruct (decide (p <= 9)) as [Hp9|Hp9].
  - assert (Hnp : n = p) by (unfold n; rewrite decide_False by lia; done). rewrite Hnp in *.
    assert (HTT : T = 10 ^ (9 - p) * 10 ^ 10).
    { unfold T. rewrite <- Z.pow_add_r by lia. f_equal. lia. }
    set (t := 10 ^ (9 - p)) in *. assert (Ht : 0 < t) by (apply Z.pow_pos_nonneg; lia).
    assert (HDf : D = first / t).
    { unfold D, first. rewrite HTT, (Z.mul_comm t), <- Z.div_div by lia. done. }
    assert (HRf : R = first mod t * 10 ^ 10 + rest).
    { unfold R. rewrite HTT, (Z.mul_comm t), Z.rem_mul_r by lia. fold first rest. lia. }
    pose proof (Z.mod_pos_bound first t Ht) as Hmf.
    destruct (decide (p < 9)) as [Hlt|Hge].
    + rewrite (round_inside_ok first Hfb p eps buf prod digits) by (done || lia). cbn [bind]. apply Hmain.
      * destruct Hpr as (-> & _). by rewrite HDf.
      * unfold up, goes_up. fold t. rewrite <- HDf. apply bool_decide_ext. rewrite HRf, HTT.
        assert (He : exists u, t = 2 * u).
        { exists (5 * 10 ^ (8 - p)). unfold t. replace (9 - p) with (1 + (8 - p)) by lia. rewrite Z.pow_add_r by lia. lia. }
        destruct He as [u Hu]. set (rf := first mod t) in *.
        destruct (Z.eqb_spec rest 0) as [Hr0|Hr0]; cbn [negb].
        -- rewrite Hr0. rewrite orb_false_r. split; intros [|[]]; try (left; lia); right; (split; [lia|done]).
        -- rewrite orb_true_r. split.
           ++ intros [|[]]; left; lia.
           ++ intros [|[]]; [|lia]. destruct (decide (t < 2 * rf)); [by left|right]. split; [lia|done].
    + assert (p = 9) as -> by lia. cbn [bind]. change t with 1 in *. apply Hmain.
      * destruct Hpr as (-> & _). by rewrite HDf.
      * destruct Hpr as (_ & _ & Hodd). rewrite odd_land, Hodd. change (10 ^ (9 - 9)) with 1 in *. rewrite <- HDf.
        rewrite Z.mod_1_r in *. unfold up, goes_up. assert (R = rest) as -> by lia. assert (T = 10 ^ 10) as -> by lia.
        destruct (Z.ltb_spec 5000000000 rest); [symmetry; apply bool_decide_eq_true; left; lia|]. cbn [orb].
        destruct (Z.eqb_spec rest 5000000000); cbn [andb].
        -- destruct (Z.odd D || more) eqn:Hd; symmetry.
           ++ apply bool_decide_eq_true. right. lia.
           ++ apply bool_decide_eq_false. intros [|[_ ?]]; [lia|done].
        -- symmetry. apply bool_decide_eq_false. lia.
  - assert (Hn9 : n = 9) by (unfold n; rewrite decide_True by lia; done). rewrite Hn9 in *.
    assert (Hsec : wrap 32 (umul128_upper64 rest 1844674407370955162) = rest / 10).
    { unfold umul128_upper64. rewrite umul128_of. cbn [u128_of fst].
      rewrite (magic_div rest _ 10) by lia. apply wrap_id. split; [apply Z.div_pos; lia|apply Z.div_lt_upper_bound; lia]. }
    rewrite Hsec. set (second := rest / 10).
    pose proof (Z.div_mod rest 10 ltac:(lia)) as Hdr. pose proof (Z.mod_pos_bound rest 10 ltac:(lia)) as Hmr. fold second in Hdr.
    set (third := rest mod 10) in *.
    assert (Hthird : wrap 32 (wrap 32 rest - wrap 32 (second * 10)) = third).
    { rewrite !wrap_mod by lia. rewrite <- Zminus_mod. replace (rest - second * 10) with third by lia. apply Z.mod_small. lia. }
    rewrite Hthird.
    assert (Hsb : 0 <= second < 10 ^ 9) by lia.
    destruct (print_subsegment_ok second Hsb (p - 9) ltac:(lia)) as (eps2 & Heps2 & ((buf2 & prod2) & digits2) & -> & Hpr2).
    cbn [bind]. clear Heps. destruct Hpr as (Hbuf & _ & _). change (9 - 9) with 0 in Hbuf. rewrite Z.pow_0_r, Z.div_1_r in Hbuf.
    assert (HTT : T = 10 ^ (9 - (p - 9)) * 10).
    { unfold T. rewrite (Z.mul_comm _ 10), <- Z.pow_succ_r by lia. f_equal. lia. }
    set (t := 10 ^ (9 - (p - 9))) in *. assert (Ht : 0 < t) by (apply Z.pow_pos_nonneg; lia).
    assert (HP9 : 10 ^ 9 = t * 10 ^ (p - 9)).
    { unfold t. rewrite <- Z.pow_add_r by lia. f_equal. lia. }
    pose proof (Z.div_mod second t ltac:(lia)) as Hds. pose proof (Z.mod_pos_bound second t Ht) as Hms.
    set (sd := second / t) in *. set (sr := second mod t) in *.
    assert (Hsdb : 0 <= sd < 10 ^ (p - 9)).
    { split; [apply Z.div_pos; lia|]. apply Z.div_lt_upper_bound; lia. }
    assert (HDR : D = first * 10 ^ (p - 9) + sd /\ R = sr * 10 + third).
    { assert (S = T * (first * 10 ^ (p - 9) + sd) + (sr * 10 + third)) as HSe.
      { rewrite HdmS, HTT. replace (10 ^ 10 * first) with (10 * 10 ^ 9 * first) by lia. rewrite HP9, Hdr, Hds. ring. }
      split; symmetry; [apply (Z.div_unique_pos S T _ (sr * 10 + third))|apply (Z.mod_unique_pos S T (first * 10 ^ (p - 9) + sd))]; lia. }
    destruct HDR as [HDs HRs].
    assert (Hodd : Z.odd D = Z.odd sd).
    { rewrite HDs, Z.odd_add, Z.odd_mul. replace (10 ^ (p - 9)) with (10 * 10 ^ (p - 10)).
      2: { rewrite <- Z.pow_succ_r by lia. f_equal. lia. }
      rewrite Z.odd_mul. cbn [Z.odd andb]. rewrite andb_false_r. by destruct (Z.odd sd). }
    assert (Hall : buf ++ buf2 = chars (Z.to_nat p) D).
    { destruct Hpr2 as (-> & _). rewrite Hbuf. fold t sd. rewrite chars_app; rewrite Z2Nat.id by lia; [|done].
      rewrite HDs. f_equal. lia. }
    destruct (decide (p < 18)) as [Hlt|Hge].
    + rewrite (round_inside_ok second Hsb (p - 9) eps2 buf2 prod2 digits2) by (done || lia). cbn [bind].
      apply Hmain; [done|]. unfold up, goes_up. fold t sd sr. rewrite Hodd. apply bool_decide_ext. rewrite HRs, HTT.
      assert (He : exists u, t = 2 * u).
      { exists (5 * 10 ^ (17 - p)). unfold t. replace (9 - (p - 9)) with (1 + (17 - p)) by lia. rewrite Z.pow_add_r by lia. lia. }
      destruct He as [u Hu].
      destruct (Z.eqb_spec third 0) as [Hr0|Hr0]; cbn [negb].
      * rewrite Hr0. rewrite orb_false_r. split; intros [|[]]; try (left; lia); right; (split; [lia|done]).
      * rewrite orb_true_r. split.
        -- intros [|[]]; left; lia.
        -- intros [|[]]; [|lia]. destruct (decide (t < 2 * sr)); [by left|right]. split; [lia|done].
    + assert (p = 18) as -> by lia. cbn [bind]. apply Hmain; [done|].
      destruct Hpr2 as (_ & _ & Hodd2). rewrite odd_land, Hodd2. fold t sd. rewrite <- Hodd.
      change t with 1 in *. assert (sr = 0) by lia. unfold up, goes_up. assert (R = third) as -> by lia. assert (T = 10) as -> by lia.
      destruct (Z.ltb_spec 5 third); [symmetry; apply bool_decide_eq_true; left; lia|]. cbn [orb].
      destruct (Z.eqb_spec third 5); cbn [andb].
      * destruct (Z.odd D || more) eqn:Hd; symmetry.
        -- apply bool_decide_eq_true. right. lia.
        -- apply bool_decide_eq_false. intros [|[_ ?]]; [lia|done].
      * symmetry. apply bool_decide_eq_false. lia.
Qed.
