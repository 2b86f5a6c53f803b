(** The big integers do what their names say. *)
From Verif Require Import Base.Cpp Model.FmtInt Model.Dragonbox Model.Bigint Proofs.FmtIntProofs Proofs.DragonboxArith.
Set Default Proof Using "Type".
Local Open Scope Z_scope.

Local Notation BB := (2 ^ 32).
(** The number that bigits stand for. *)
Fixpoint bval (bs : list Z) : Z := match bs with [] => 0 | b :: bs => b + 2 ^ 32 * bval bs end.
Definition val (x : bigint) : Z := bval (bigits x) * 2 ^ (32 * bexp x).
Definition ok (bs : list Z) : Prop := Forall (fun b => 0 <= b < 2 ^ 32) bs.
(** The top bigit is not zero. *)
Definition top (bs : list Z) : Prop := exists b, last bs = Some b /\ b <> 0.
Definition p32 (n : nat) : Z := 2 ^ (32 * Z.of_nat n).

Lemma p32_0 : p32 0 = 1. Proof. done. Qed.
Lemma p32_S n : p32 (S n) = BB * p32 n.
Proof. unfold p32. rewrite <- Z.pow_add_r by lia. f_equal. lia. Qed.
Lemma p32_add n m : p32 (n + m) = p32 n * p32 m.
Proof. unfold p32. rewrite <- Z.pow_add_r by lia. f_equal. lia. Qed.
Lemma p32_pos n : 0 < p32 n.
Proof. apply pow2_pos. lia. Qed.

Lemma bval_app a b : bval (a ++ b) = bval a + p32 (length a) * bval b.
Proof.
  induction a as [|x a IH]; [cbn [app bval length]; rewrite p32_0; lia|].
  cbn [app bval length]. rewrite IH, p32_S. ring.
Qed.
Lemma bval_bound bs : ok bs -> 0 <= bval bs < p32 (length bs).
Proof.
  induction 1 as [|b bs Hb _ IH]; [cbn [bval length]; rewrite p32_0; lia|]. cbn [bval length]. rewrite p32_S. lia.
Qed.
Lemma bval_insert bs i b v : bs !! i = Some b -> bval (<[i := v]> bs) = bval bs + (v - b) * p32 i.
Proof.
  revert i. induction bs as [|x bs IH]; intros i Hi; [done|]. destruct i as [|i]; cbn in Hi.
  - injection Hi as ->. rewrite p32_0. cbn [insert list_insert bval]. lia.
  - cbn [insert list_insert bval]. change (alter _ _ _) with (<[i := v]> bs). rewrite IH by done. rewrite p32_S. ring.
Qed.
Lemma bval_zeros n : bval (replicate n 0) = 0.
Proof. induction n as [|n IH]; [done|]. cbn [replicate bval]. lia. Qed.
Lemma top_app a b : top b -> top (a ++ b).
Proof.
  intros (x & Hx & H0). exists x. split; [|done].
  destruct b as [|y b] using rev_ind; [done|]. rewrite last_snoc in Hx. by rewrite app_assoc, last_snoc.
Qed.
Lemma top_cons b bs : top bs -> top (b :: bs).
Proof. apply (top_app [b]). Qed.
Lemma top_snoc bs : top bs -> exists l b, bs = l ++ [b] /\ b <> 0.
Proof.
  intros (b & Hb & H0). apply last_Some in Hb as [l ->]. eauto.
Qed.
Lemma top_low bs : ok bs -> top bs -> p32 (length bs - 1) <= bval bs.
Proof.
  intros Ho (l & b & -> & Hb)%top_snoc. apply Forall_app in Ho as [Hl Hb1]. apply Forall_cons_1 in Hb1 as [Hb1 _].
  rewrite bval_app, app_length. cbn [length bval]. replace (length l + 1 - 1)%nat with (length l) by lia.
  pose proof (bval_bound l Hl). pose proof (p32_pos (length l)).
  assert (p32 (length l) * 1 <= p32 (length l) * (b + BB * 0)) by (apply Z.mul_le_mono_nonneg_l; lia). lia.
Qed.
Lemma top_pos bs : ok bs -> top bs -> 0 < bval bs.
Proof. intros H1 H2. pose proof (top_low bs H1 H2). pose proof (p32_pos (length bs - 1)). lia. Qed.
Lemma bval_take_drop n bs : bval bs = bval (take n bs) + p32 (Nat.min n (length bs)) * bval (drop n bs).
Proof. rewrite <- (take_drop n bs) at 1. by rewrite bval_app, take_length. Qed.
Lemma bval_bigit bs i : ok bs -> (bval bs / p32 i) mod BB = default 0 (bs !! i).
Proof.
  intros Ho. destruct (bs !! i) as [b|] eqn:Hi; cbn [default].
  - pose proof (lookup_lt_Some _ _ _ Hi) as Hlt. rewrite <- (take_drop_middle _ _ _ Hi) in Ho |- *.
    apply Forall_app in Ho as [Ho1 Ho2]. apply Forall_cons_1 in Ho2 as [Hb Ho2].
    rewrite bval_app. cbn [bval]. rewrite take_length, Nat.min_l by lia. pose proof (bval_bound _ Ho1) as Hl.
    rewrite take_length, Nat.min_l in Hl by lia.
    rewrite (Z.mul_comm (p32 i)), Z.div_add by (pose proof (p32_pos i); lia).
    rewrite Z.div_small by done. rewrite Z.add_0_l, (Z.mul_comm BB), Z.mod_add by lia. apply Z.mod_small. done.
  - apply lookup_ge_None in Hi. pose proof (bval_bound _ Ho) as Hb.
    rewrite Z.div_small; [done|]. split; [lia|]. eapply Z.lt_le_trans; [apply Hb|].
    unfold p32. apply Z.pow_le_mono_r; lia.
Qed.

(** ** Assigning and multiplying *)
Lemma carry_bigits_ok c : 0 <= c < 2 ^ 128 ->
  wp (carry_bigits c) (fun bs => bval bs = c /\ ok bs /\ (c <> 0 -> top bs) /\ (c = 0 -> bs = [])).
Proof.
  intros Hc. unfold carry_bigits.
  apply (wp_loop (fun '(bs, r) => ok bs /\ 0 <= r < 2 ^ (128 - 32 * Z.of_nat (length bs)) /\
      (length bs <= 4)%nat /\ c = bval bs + p32 (length bs) * r /\ (r = 0 -> bs = [] \/ top bs) /\ (bs <> [] -> c <> 0))
    (fun '(bs, r) => 4 - length bs)%nat).
  - cbn. lia.
  - cbn [bval length]. rewrite p32_0. split_and!; try done; try lia; [by apply Forall_nil|by left].
  - intros [bs r] (Ho & Hr & Hlen & Hv & Htop & Hne). destruct (decide (r <> 0)) as [Hr0|Hr0]; apply wp_ok.
    + assert (Hlen4 : (length bs < 4)%nat).
      { destruct (decide (length bs < 4)%nat) as [|Hge]; [done|]. exfalso. assert (length bs = 4%nat) as E by lia.
        rewrite E in Hr. change (128 - 32 * Z.of_nat 4) with 0 in Hr. change (2 ^ 0) with 1 in Hr. lia. }
      rewrite Z.shiftr_div_pow2 by lia. rewrite wrap_mod by lia.
      pose proof (Z.div_mod r BB ltac:(lia)) as Hdm. pose proof (Z.mod_pos_bound r BB ltac:(lia)) as Hm.
      rewrite app_length. cbn [length]. split; [|lia]. split_and!.
      * apply Forall_app. split; [done|]. by apply Forall_singleton.
      * apply Z.div_pos; lia.
      * apply Z.div_lt_upper_bound; [lia|]. rewrite <- Z.pow_add_r by lia.
        replace (32 + (128 - 32 * Z.of_nat (length bs + 1))) with (128 - 32 * Z.of_nat (length bs)) by lia. lia.
      * lia.
      * rewrite bval_app, p32_add. cbn [bval]. change (p32 1) with BB. rewrite Hv. rewrite Hdm at 1. ring.
      * intros H0. right. apply top_app. exists (r mod BB). split; [done|]. lia.
      * intros _. rewrite Hv. pose proof (bval_bound bs Ho). pose proof (p32_pos (length bs)). nia.
    + assert (r = 0) as -> by lia. rewrite Z.mul_0_r, Z.add_0_r in Hv. split_and!; try done.
      * intros Hc0. destruct (Htop eq_refl) as [->|]; [|done]. cbn in Hv. lia.
      * intros Hc0. destruct bs; [done|]. by destruct Hne.
Qed.

Lemma assign_ok n : 0 < n < 2 ^ 128 ->
  wp (assign n) (fun x => bexp x = 0 /\ ok (bigits x) /\ top (bigits x) /\ bval (bigits x) = n).
Proof.
  intros Hn. unfold assign. destruct (Z.ltb_spec 0 n) as [_|]; [|lia]. cbn [asserted]. apply wp_bind.
  apply (wp_loop (fun '(bs, r) => ok bs /\ 0 < r < 2 ^ (128 - 32 * Z.of_nat (length bs)) /\
      (length bs <= 3)%nat /\ n = bval bs + p32 (length bs) * r)
    (fun '(bs, r) => 3 - length bs)%nat).
  - cbn. lia.
  - cbn [bval length]. rewrite p32_0. split_and!; try done; try lia. by apply Forall_nil.
  - intros [bs r] (Ho & Hr & Hlen & Hv). cbv zeta. rewrite Z.shiftr_div_pow2 by lia. rewrite wrap_mod by lia.
    pose proof (Z.div_mod r BB ltac:(lia)) as Hdm. pose proof (Z.mod_pos_bound r BB ltac:(lia)) as Hm.
    assert (Ho2 : ok (bs ++ [r mod BB])) by (apply Forall_app; split; [done|]; by apply Forall_singleton).
    assert (Hq : 0 <= r / BB < 2 ^ (128 - 32 * Z.of_nat (length bs + 1))).
    { split; [apply Z.div_pos; lia|]. apply Z.div_lt_upper_bound; [lia|]. rewrite <- Z.pow_add_r by lia.
      replace (32 + (128 - 32 * Z.of_nat (length bs + 1))) with (128 - 32 * Z.of_nat (length bs)) by lia. lia. }
    assert (Hv2 : n = bval (bs ++ [r mod BB]) + p32 (length bs + 1) * (r / BB)).
    { rewrite bval_app, p32_add. cbn [bval]. change (p32 1) with BB. rewrite Hv. rewrite Hdm at 1. ring. }
    destruct (decide (r / BB <> 0)) as [Hr0|Hr0]; apply wp_ok.
    + rewrite app_length. cbn [length].
      assert (Hlen3 : (length bs < 3)%nat).
      { destruct (decide (length bs < 3)%nat) as [|Hge]; [done|]. exfalso. assert (length bs = 3%nat) as E by lia.
        rewrite E in Hq. change (128 - 32 * Z.of_nat (3 + 1)) with 0 in Hq. change (2 ^ 0) with 1 in Hq. lia. }
      split; [|lia]. split_and!; try done; lia.
    + apply wp_ok. cbn [bexp bigits]. split_and!; try done.
      * apply top_app. exists (r mod BB). split; [done|]. lia.
      * rewrite Hv2. assert (r / BB = 0) as -> by lia. lia.
Qed.

Definition mul32 (v : Z) : list Z -> Z -> list Z := fix go bs carry :=
  match bs with
  | [] => if decide (carry <> 0) then [carry] else []
  | b :: bs =>
      let result := wrap 64 (b * v + carry) in
      wrap 32 result :: go bs (wrap 32 (Z.shiftr result 32))
  end.
Lemma mul32_ok v bs c : 0 <= v < BB -> 0 <= c < BB -> ok bs ->
  bval (mul32 v bs c) = bval bs * v + c /\ ok (mul32 v bs c) /\ (length (mul32 v bs c) <= length bs + 1)%nat /\
  (length bs <= length (mul32 v bs c))%nat.
Proof.
  intros Hv Hc Ho. revert c Hc. induction Ho as [|b bs Hb Ho IH]; intros c Hc; cbn [mul32].
  - destruct (decide (c <> 0)); cbn [bval length]; split_and!; try lia; [|by apply Forall_nil].
    by apply Forall_singleton.
  - assert (Hr : 0 <= b * v + c < 2 ^ 64) by nia.
    rewrite (wrap_id 64) by done. rewrite Z.shiftr_div_pow2, !wrap_mod by lia. set (r := b * v + c) in *.
    pose proof (Z.div_mod r BB ltac:(lia)) as Hdm. pose proof (Z.mod_pos_bound r BB ltac:(lia)) as Hm.
    assert (Hq : 0 <= r / BB < BB) by (split; [apply Z.div_pos; lia|apply Z.div_lt_upper_bound; lia]).
    rewrite (Z.mod_small (r / BB)) by done.
    destruct (IH (r / BB) Hq) as (IH1 & IH2 & IH3 & IH4). cbn [bval length]. split_and!; try lia.
    by apply Forall_cons.
Qed.
Lemma mul32_top v bs c : 0 < v < BB -> 0 <= c < BB -> ok bs -> top bs -> top (mul32 v bs c).
Proof.
  intros Hv Hc Ho. revert c Hc. induction Ho as [|b bs Hb Ho IH]; intros c Hc Ht; cbn [mul32].
  - by destruct Ht as (? & ? & _).
  - assert (Hr : 0 <= b * v + c < 2 ^ 64) by nia.
    rewrite (wrap_id 64) by done. rewrite Z.shiftr_div_pow2, !wrap_mod by lia. set (r := b * v + c) in *.
    assert (Hq : 0 <= r / BB < BB) by (split; [apply Z.div_pos; lia|apply Z.div_lt_upper_bound; lia]).
    rewrite (Z.mod_small (r / BB)) by done.
    destruct bs as [|b' bs].
    + cbn [mul32]. destruct Ht as (x & Hx & Hx0). cbn in Hx. injection Hx as <-.
      destruct (decide (r / BB <> 0)) as [H0|H0]; [apply top_cons; eexists; split; [done|lia]|].
      exists (r mod BB). split; [done|]. pose proof (Z.div_mod r BB ltac:(lia)).
      assert (0 < b * v) by (apply Z.mul_pos_pos; lia). lia.
    + apply top_cons, IH; [done|]. destruct Ht as (x & Hx & Hx0). exists x. done.
Qed.
Lemma multiply32_ok x v : 0 < v < BB -> ok (bigits x) ->
  let y := multiply32 x v in
  bexp y = bexp x /\ ok (bigits y) /\ bval (bigits y) = bval (bigits x) * v /\ (top (bigits x) -> top (bigits y)) /\
  (length (bigits x) <= length (bigits y) <= length (bigits x) + 1)%nat /\ (bigits x = [0] -> bigits y = [0]).
Proof.
  intros Hv Ho y. change (bigits y) with (mul32 v (bigits x) 0).
  destruct (mul32_ok v (bigits x) 0 ltac:(lia) ltac:(lia) Ho) as (H1 & H2 & H3 & H4).
  split_and!; try done; try lia.
  - intros Ht. apply mul32_top; [lia|lia|done|done].
  - intros ->. done.
Qed.
Lemma times_int_ok x v : 0 < v < BB -> times_int x v = Ok (multiply32 x v).
Proof. intros Hv. unfold times_int. destruct (Z.ltb_spec 0 v); [done|lia]. Qed.

(** By a number that has 64 bits. *)
Lemma times_u128_ok x v : 0 < v < 2 ^ 64 -> ok (bigits x) -> top (bigits x) ->
  wp (times_u128 x v) (fun y => bexp y = bexp x /\ ok (bigits y) /\ bval (bigits y) = bval (bigits x) * v /\ top (bigits y)).
Proof.
  intros Hv Ho Ht. unfold times_u128. destruct (Z.ltb_spec 0 v) as [_|]; [|lia]. cbn [asserted]. unfold multiply128.
  rewrite (wrap_id 64) by lia. rewrite (Z.shiftr_div_pow2 v) by lia. rewrite (Z.div_small v) by lia.
  set (go := fix go bs carry := match bs with [] => _ | _ => _ end).
  assert (Hgo : forall bs, ok bs -> forall c, 0 <= c < 2 ^ 65 ->
    wp (go bs c) (fun r => bval r = bval bs * v + c /\ ok r /\ (top bs -> top r) /\ (c <> 0 -> bs = [] -> top r) /\ (bs = [] -> c = 0 -> r = []))).
  { clear x Ho Ht. induction 1 as [|b bs Hb Ho IH]; intros c Hc; cbn [go].
    - eapply wp_mono; [apply carry_bigits_ok; lia|]. intros r (H1 & H2 & H3 & H4). cbn [bval]. split_and!; try done; try lia.
      + by intros (? & ? & _).
      + auto.
    - rewrite Z.mul_0_l. change (wrap 128 0) with 0. rewrite Z.shiftl_0_l. change (wrap 128 0) with 0. rewrite Z.add_0_l.
      rewrite (wrap_mod 32 c) by lia. pose proof (Z.mod_pos_bound c BB ltac:(lia)) as Hcm.
      pose proof (Z.div_mod c BB ltac:(lia)) as Hcd.
      assert (Hr : 0 <= v * b + c mod BB < 2 ^ 96) by nia. set (r := v * b + c mod BB) in *.
      rewrite (wrap_id 128 r) by lia. rewrite !Z.shiftr_div_pow2 by lia.
      assert (Hrq : 0 <= r / BB < 2 ^ 64) by (split; [apply Z.div_pos; lia|apply Z.div_lt_upper_bound; lia]).
      assert (Hcq : 0 <= c / BB < 2 ^ 33) by (split; [apply Z.div_pos; lia|apply Z.div_lt_upper_bound; lia]).
      rewrite (wrap_id 128 (r / BB + c / BB)) by lia. rewrite wrap_mod by lia.
      pose proof (Z.div_mod r BB ltac:(lia)) as Hrd. pose proof (Z.mod_pos_bound r BB ltac:(lia)) as Hrm.
      apply wp_bind. eapply wp_mono; [apply (IH (r / BB + c / BB)); lia|].
      intros l (H1 & H2 & H3 & H4 & H5). apply wp_ok. split_and!; try done.
      + cbn [bval]. rewrite H1. unfold r in *. lia.
      + by apply Forall_cons.
      + intros Ht. destruct bs as [|b' bs].
        * destruct Ht as (z & Hz & Hz0). cbn in Hz. injection Hz as <-.
          destruct (decide (r / BB + c / BB = 0)) as [H0|H0]; [|by apply top_cons, H4].
          rewrite (H5 eq_refl H0). exists (r mod BB). split; [done|].
          assert (0 < v * b) by (apply Z.mul_pos_pos; lia). lia.
        * apply top_cons, H3. destruct Ht as (z & Hz & Hz0). by exists z. }
  apply wp_bind. eapply wp_mono; [apply (Hgo (bigits x) Ho 0); lia|].
  intros r (H1 & H2 & H3 & _). apply wp_ok. cbn [bexp bigits]. split_and!; auto. lia.
Qed.

(** ** Shifting *)
Definition shl_bigits (s : Z) : list Z -> Z -> list Z := fix go bs carry :=
  match bs with
  | [] => if decide (carry <> 0) then [carry] else []
  | b :: bs => wrap 32 (wrap 32 (Z.shiftl b s) + carry) :: go bs (Z.shiftr b (32 - s))
  end.
Lemma shl_bigits_ok s bs c : 0 < s < 32 -> 0 <= c < 2 ^ s -> ok bs ->
  bval (shl_bigits s bs c) = bval bs * 2 ^ s + c /\ ok (shl_bigits s bs c) /\
  (top bs -> top (shl_bigits s bs c)) /\ (c <> 0 -> bs = [] -> top (shl_bigits s bs c)).
Proof.
  intros Hs Hc Ho. revert c Hc. assert (Hs2 : 2 ^ s < BB) by (apply Z.pow_lt_mono_r; lia).
  assert (Hsp : 0 < 2 ^ s) by (apply pow2_pos; lia). assert (Hsq : 0 < 2 ^ (32 - s)) by (apply pow2_pos; lia).
  assert (HB : BB = 2 ^ (32 - s) * 2 ^ s) by (rewrite <- Z.pow_add_r by lia; f_equal; lia).
  induction Ho as [|b bs Hb Ho IH]; intros c Hc; cbn [shl_bigits].
  - destruct (decide (c <> 0)); cbn [bval]; split_and!; try lia.
    + apply Forall_singleton. lia.
    + by intros (? & ? & _).
    + intros _ _. by exists c.
    + by apply Forall_nil.
    + by intros (? & ? & _).
  - rewrite Z.shiftl_mul_pow2, Z.shiftr_div_pow2 by lia. rewrite (wrap_mod 32 (b * 2 ^ s)) by lia.
    assert (Hbs : (b * 2 ^ s) mod BB = b mod 2 ^ (32 - s) * 2 ^ s) by (rewrite HB, Z.mul_mod_distr_r by lia; done).
    rewrite Hbs. pose proof (Z.div_mod b (2 ^ (32 - s)) ltac:(lia)) as Hdm.
    pose proof (Z.mod_pos_bound b (2 ^ (32 - s)) ltac:(lia)) as Hm. set (l := b mod 2 ^ (32 - s)) in *.
    assert (Hl : l * 2 ^ s + 2 ^ s <= BB).
    { rewrite HB. replace (l * 2 ^ s + 2 ^ s) with ((l + 1) * 2 ^ s) by ring. apply Z.mul_le_mono_nonneg_r; lia. }
    assert (Hl0 : 0 <= l * 2 ^ s) by (apply Z.mul_nonneg_nonneg; lia).
    rewrite wrap_id by lia.
    assert (Hq : 0 <= b / 2 ^ (32 - s) < 2 ^ s).
    { split; [apply Z.div_pos; lia|]. apply Z.div_lt_upper_bound; lia. }
    destruct (IH _ Hq) as (IH1 & IH2 & IH3 & IH4). cbn [bval]. split_and!.
    + rewrite IH1. transitivity ((2 ^ (32 - s) * (b / 2 ^ (32 - s)) + l) * 2 ^ s + c + BB * bval bs * 2 ^ s); [rewrite HB; ring|].
      rewrite <- Hdm. ring.
    + apply Forall_cons. split; [lia|done].
    + intros Ht. destruct bs as [|b' bs].
      * destruct Ht as (z & Hz & Hz0). cbn in Hz. injection Hz as <-.
        destruct (decide (b / 2 ^ (32 - s) = 0)) as [H0|H0]; [|apply top_cons; by apply IH4].
        rewrite H0. cbn [shl_bigits]. rewrite decide_False by lia. eexists. split; [done|].
        assert (0 < l * 2 ^ s) by (apply Z.mul_pos_pos; lia). lia.
      * apply top_cons, IH3. destruct Ht as (z & Hz & Hz0). by exists z.
    + done.
Qed.
Lemma shift_left_ok x s : 0 <= s -> ok (bigits x) -> 0 <= bexp x ->
  wp (shift_left x s) (fun y => bexp x <= bexp y /\ ok (bigits y) /\ (top (bigits x) -> top (bigits y)) /\
    val y = val x * 2 ^ s /\ bexp y = bexp x + s / 32 /\
    bval (bigits y) = bval (bigits x) * 2 ^ (s mod 32)).
Proof.
  intros Hs Ho Hx. unfold shift_left. destruct (Z.leb_spec 0 s) as [_|]; [|lia]. cbn [asserted].
  pose proof (Z.div_mod s 32 ltac:(lia)) as Hdm. pose proof (Z.mod_pos_bound s 32 ltac:(lia)) as Hm.
  assert (Hd : 0 <= s / 32) by (apply Z.div_pos; lia).
  assert (Hval : forall bs, bval bs = bval (bigits x) * 2 ^ (s mod 32) ->
    val (Bigint bs (bexp x + s / 32)) = val x * 2 ^ s).
  { intros bs Hb. unfold val. cbn [bigits bexp]. rewrite Hb. rewrite Hdm at 3.
    rewrite Z.mul_add_distr_l, !Z.pow_add_r by lia. ring. }
  destruct (decide (s mod 32 = 0)) as [H0|H0].
  - apply wp_ok. assert (Hb0 : bval (bigits x) = bval (bigits x) * 2 ^ (s mod 32)) by (rewrite H0; lia).
    cbn [bexp bigits]. split_and!; try done; [lia|]. by apply Hval.
  - apply (wp_ok (Bigint (shl_bigits (s mod 32) (bigits x) 0) (bexp x + s / 32))). cbn [bexp bigits].
    destruct (shl_bigits_ok (s mod 32) (bigits x) 0 ltac:(lia) ltac:(split; [lia|apply pow2_pos; lia]) Ho) as (H1 & H2 & H3 & _).
    rewrite Z.add_0_r in H1. split_and!; try done; [lia|]. by apply Hval.
Qed.

(** ** Squaring *)
Fixpoint total (f : nat -> Z) (n : nat) : Z := match n with O => 0 | S n => total f n + f n end.
Lemma total_ext f g n : (forall i, (i < n)%nat -> f i = g i) -> total f n = total g n.
Proof. induction n as [|n IH]; intros H; [done|]. cbn [total]. rewrite IH by (intros; apply H; lia). by rewrite H by lia. Qed.
Lemma total_scale f c n : total (fun i => f i * c) n = total f n * c.
Proof. induction n as [|n IH]; [done|]. cbn [total]. rewrite IH. ring. Qed.
Lemma total_plus f g n : total (fun i => f i + g i) n = total f n + total g n.
Proof. induction n as [|n IH]; [done|]. cbn [total]. rewrite IH. ring. Qed.
Lemma total_bound f n M : (forall i, (i < n)%nat -> 0 <= f i <= M) -> 0 <= total f n <= Z.of_nat n * M.
Proof.
  induction n as [|n IH]; intros H; [cbn [total]; lia|]. cbn [total]. specialize (IH ltac:(intros; apply H; lia)).
  pose proof (H n ltac:(lia)). lia.
Qed.
Lemma total_zeros f n m : (forall i, (n <= i < m)%nat -> f i = 0) -> (n <= m)%nat -> total f m = total f n.
Proof.
  intros H Hle. induction m as [|m IH]; [by assert (n = 0%nat) as -> by lia|].
  destruct (decide (n = S m)) as [->|]; [done|]. cbn [total]. rewrite IH by (try lia; intros; apply H; lia).
  rewrite H by lia. lia.
Qed.
Lemma total_app f n m : total f (n + m) = total f n + total (fun i => f (n + i)%nat) m.
Proof.
  induction m as [|m IH]; [rewrite Nat.add_0_r; cbn [total]; lia|].
  rewrite Nat.add_succ_r. cbn [total]. rewrite IH. lia.
Qed.

Definition bigit (bs : list Z) (i : nat) : Z := default 0 (bs !! i).
Lemma bval_total bs : bval bs = total (fun i => bigit bs i * p32 i) (length bs).
Proof.
  induction bs as [|b bs IH] using rev_ind; [done|].
  rewrite bval_app, app_length. cbn [length bval]. rewrite Nat.add_1_r. cbn [total]. rewrite IH. unfold bigit at 3.
  rewrite lookup_app_r, Nat.sub_diag by lia. cbn [lookup list_lookup default].
  rewrite Z.mul_0_r, Z.add_0_r, (Z.mul_comm (p32 _)). f_equal. apply total_ext. intros i Hi. unfold bigit.
  by rewrite lookup_app_l by lia.
Qed.
Lemma bigit_bound bs i : ok bs -> 0 <= bigit bs i < BB.
Proof.
  intros Ho. unfold bigit. destruct (bs !! i) as [b|] eqn:H; cbn [default]; [|lia].
  exact (Forall_lookup_1 _ _ _ _ Ho H).
Qed.

Definition conv (bs : list Z) (k : nat) : Z := total (fun i => bigit bs i * bigit bs (k - i)) (S k).
Lemma conv_triangle bs m :
  total (fun k => conv bs k * p32 k) m =
  total (fun i => bigit bs i * p32 i * total (fun j => bigit bs j * p32 j) (m - i)) m.
Proof.
  induction m as [|m IH]; [done|]. cbn [total]. rewrite IH.
  assert (H : total (fun i => bigit bs i * p32 i * total (fun j => bigit bs j * p32 j) (S m - i)) m
    = total (fun i => bigit bs i * p32 i * total (fun j => bigit bs j * p32 j) (m - i)) m
      + total (fun i => bigit bs i * bigit bs (m - i) * p32 m) m).
  { rewrite <- total_plus. apply total_ext. intros i Hi.
    replace (S m - i)%nat with (S (m - i)) by lia. cbn [total].
    replace (p32 m) with (p32 i * p32 (m - i)) by (rewrite <- p32_add; f_equal; lia). ring. }
  rewrite H, total_scale. rewrite Nat.sub_succ_l, Nat.sub_diag by lia. unfold conv. cbn [total]. rewrite Nat.sub_diag, p32_0. ring.
Qed.
Lemma conv_square bs : total (fun k => conv bs k * p32 k) (2 * length bs) = bval bs * bval bs.
Proof.
  rewrite conv_triangle. set (n := length bs).
  assert (H0 : forall i, (n <= i)%nat -> bigit bs i = 0).
  { intros i Hi. unfold bigit. by rewrite lookup_ge_None_2 by lia. }
  rewrite (total_zeros _ n) by (try lia; intros i Hi; rewrite H0 by lia; lia).
  rewrite (total_ext _ (fun i => bigit bs i * p32 i * bval bs)).
  - rewrite total_scale, <- bval_total. done.
  - intros i Hi. f_equal. rewrite bval_total. apply total_zeros; [|lia]. intros j Hj. rewrite H0 by lia. lia.
Qed.

Lemma remove_leading_zeros_ok x : ok (bigits x) -> bigits x <> [] ->
  wp (remove_leading_zeros x) (fun y => bexp y = bexp x /\ ok (bigits y) /\ bval (bigits y) = bval (bigits x) /\
    (top (bigits y) \/ bigits y = [0]) /\ (length (bigits y) <= length (bigits x))%nat).
Proof.
  intros Ho Hne. unfold remove_leading_zeros. apply wp_bind. set (bs := bigits x) in *.
  assert (Hlen : (0 < length bs)%nat) by (destruct bs; [done|cbn; lia]).
  apply (wp_loop (fun n => (1 <= n <= length bs)%nat /\ bval (take n bs) = bval bs) (fun n => n)).
  - lia.
  - split; [lia|]. by rewrite firstn_all.
  - intros n [Hn Hv].
    assert (Hfin : top (take n bs) \/ take n bs = [0] -> wp (Ok (Bigint (take n bs) (bexp x))) (fun y =>
      bexp y = bexp x /\ ok (bigits y) /\ bval (bigits y) = bval bs /\ (top (bigits y) \/ bigits y = [0]) /\
      (length (bigits y) <= length bs)%nat)).
    { intros H. apply wp_ok. cbn [bexp bigits]. split_and!; try done; [by apply Forall_take|]. rewrite take_length. lia. }
    destruct (lookup_lt_is_Some_2 bs (n - 1)) as [b Hb]; [lia|].
    assert (Htk : take n bs = take (n - 1) bs ++ [b]).
    { replace n with (S (n - 1)) at 1 by lia. by rewrite (take_S_r _ _ b). }
    destruct (decide (1 < n)%nat) as [H1|H1].
    + apply wp_bind. eapply wp_get; [exact Hb|]. destruct (decide (b = 0)) as [->|Hb0]; apply wp_ok.
      * split; [|lia]. split; [lia|]. rewrite <- Hv, Htk, bval_app. cbn [bval]. lia.
      * apply Hfin. left. rewrite Htk. apply top_app. by exists b.
    + apply wp_ok. apply Hfin. assert (n = 1%nat) as -> by lia. change (1 - 1)%nat with 0%nat in *. rewrite Htk. cbn [take app].
      destruct (decide (b = 0)) as [->|]; [by right|]. left. by exists b.
Qed.

Lemma square_sum bs n (i j : nat -> nat) s0 : ok bs ->
  (forall t, (t < n)%nat -> (i t < length bs)%nat /\ (j t < length bs)%nat) ->
  0 <= s0 -> s0 + Z.of_nat n * 2 ^ 64 < 2 ^ 128 ->
  wp (for_up n 0 (fun t sum =>
      let* a := get bs (i t) in let* b := get bs (j t) in
      Ok (wrap 128 (sum + wrap 64 (a * b)))) s0)
    (fun s => s = s0 + total (fun t => bigit bs (i t) * bigit bs (j t)) n).
Proof.
  intros Ho Hij Hs0 Hb.
  assert (Hterm : forall t, 0 <= bigit bs (i t) * bigit bs (j t) <= 2 ^ 64 - 1).
  { intros t. pose proof (bigit_bound bs (i t) Ho). pose proof (bigit_bound bs (j t) Ho). nia. }
  apply (wp_for_up (fun t s => s = s0 + total (fun t => bigit bs (i t) * bigit bs (j t)) t)).
  - cbn [total]. lia.
  - intros t s _ Ht ->. cbn in Ht. destruct (Hij t ltac:(lia)) as [Hi Hj].
    apply wp_bind. apply wp_get_lt; [done|]. intros a Ha. apply wp_bind. apply wp_get_lt; [done|]. intros b Hb'.
    apply wp_ok. cbn [total].
    assert (Ea : bigit bs (i t) = a) by (unfold bigit; by rewrite Ha).
    assert (Eb : bigit bs (j t) = b) by (unfold bigit; by rewrite Hb').
    specialize (Hterm t) as Ht1. rewrite Ea, Eb in Ht1 |- *. rewrite (wrap_id 64) by lia.
    pose proof (total_bound (fun t => bigit bs (i t) * bigit bs (j t)) t (2 ^ 64 - 1) ltac:(intros; apply Hterm)) as Htb.
    rewrite wrap_id; [lia|]. nia.
  - intros s ->. done.
Qed.

Lemma square_ok x : ok (bigits x) -> bigits x <> [] -> Z.of_nat (length (bigits x)) < 2 ^ 62 ->
  wp (square x) (fun y => bexp y = bexp x * 2 /\ ok (bigits y) /\
    bval (bigits y) = bval (bigits x) * bval (bigits x) /\ (top (bigits y) \/ bigits y = [0]) /\
    (length (bigits y) <= 2 * length (bigits x))%nat).
Proof.
  intros Ho Hne Hlen. unfold square. set (bs := bigits x) in *. set (n := length bs) in *.
  assert (Hn : (0 < n)%nat) by (unfold n; destruct bs; [done|cbn; lia]).
  set (Inv := fun (k : nat) '((m, sum) : mem * Z) => exists w, length w = k /\ ok w /\
    m = (Some <$> w) ++ replicate (2 * n - k) None /\ 0 <= sum < 2 ^ 96 * 2 ^ 30 /\
    bval w + p32 k * sum = total (fun k => conv bs k * p32 k) k).
  assert (Hconv : forall k, 0 <= conv bs k <= Z.of_nat (S k) * (2 ^ 64 - 1)).
  { intros k. apply total_bound. intros i _. pose proof (bigit_bound bs i Ho). pose proof (bigit_bound bs (k - i) Ho). nia. }
  assert (Hstep : forall k m sum sum', (k < 2 * n)%nat -> Inv k (m, sum) -> sum' = sum + conv bs k ->
    wp (put m k (Some (wrap 32 sum'))) (fun m' => Inv (S k) (m', Z.shiftr sum' 32))).
  { intros k m sum sum' Hk (w & Hw & How & Hm & Hs & Hv) Hsum.
    assert (Hs' : 0 <= sum' < 2 ^ 128) by (rewrite Hsum; specialize (Hconv k); nia).
    apply wp_put.
    - rewrite Hm, app_length, fmap_length, replicate_length, Hw. lia.
    - rewrite wrap_mod, Z.shiftr_div_pow2 by lia.
      pose proof (Z.div_mod sum' BB ltac:(lia)) as Hdm. pose proof (Z.mod_pos_bound sum' BB ltac:(lia)) as Hmb.
      exists (w ++ [sum' mod BB]). rewrite app_length. split_and!.
      + cbn [length]. lia.
      + apply Forall_app. split; [done|]. by apply Forall_singleton.
      + rewrite Hm. replace (2 * n - k)%nat with (S (2 * n - S k)) by lia. cbn [replicate].
        rewrite fmap_app, <- app_assoc. cbn [fmap list_fmap app].
        replace k with (length (Some <$> w) + 0)%nat at 1 by (rewrite fmap_length; lia). by rewrite insert_app_r.
      + apply Z.div_pos; lia.
      + apply Z.div_lt_upper_bound; lia.
      + rewrite bval_app, Hw. cbn [bval total]. rewrite <- Hv, p32_S, Z.mul_0_r, Z.add_0_r.
        transitivity (bval w + p32 k * (BB * (sum' / BB) + sum' mod BB)); [ring|]. rewrite <- Hdm, Hsum. ring. }
  apply wp_bind.
  apply (wp_for_up Inv).
  - exists []. cbn [fmap list_fmap app length bval total]. rewrite Nat.sub_0_r. split_and!; try done; try lia. by apply Forall_nil.
  - intros k [m sum] _ Hk HI. cbn in Hk. apply wp_bind.
    pose proof HI as (w & _ & _ & _ & Hs & _).
    eapply wp_mono; [apply (square_sum bs (S k) (fun i => i) (fun i => (k - i)%nat) sum Ho)|].
    + intros t Ht. fold n. lia.
    + lia.
    + nia.
    + cbv beta. intros s ->. fold (conv bs k). apply wp_bind.
      eapply wp_mono; [eapply (Hstep k m sum); [lia|done|done]|]. intros m' Hm'. by apply wp_ok.
  - cbn [Nat.add]. intros [m sum] HI. apply wp_bind.
    apply (wp_for_up Inv).
    + done.
    + clear m sum HI. intros k [m sum] Hk1 Hk2 HI. cbv zeta. apply wp_bind.
      pose proof HI as (w & _ & _ & _ & Hs & _).
      eapply wp_mono; [apply (square_sum bs (n - (k - (n - 1))) (fun t => k - (n - 1) + t)%nat (fun t => n - 1 - t)%nat sum Ho)|].
      * intros t Ht. fold n. lia.
      * lia.
      * nia.
      * cbv beta. intros s ->. apply wp_bind.
        eapply wp_mono; [eapply (Hstep k m sum); [lia|done|]|intros m' Hm'; by apply wp_ok]. f_equal.
        unfold conv. set (d := (k - (n - 1))%nat).
        replace (S k) with (d + (n - d) + (d - 1 + (S k - n - (d - 1))))%nat by lia.
        rewrite !total_app.
        assert (Hz : forall a b, (forall i, (i < b)%nat -> a i = 0) -> total a b = 0).
        { intros a b H. rewrite (total_zeros a 0 b); [done|intros; apply H; lia|lia]. }
        assert (H0 : forall i, (n <= i)%nat -> bigit bs i = 0).
        { intros i Hi. unfold bigit. by rewrite lookup_ge_None_2 by (fold n; lia). }
        rewrite (Hz _ d) by (intros i Hi; rewrite (H0 (k - i)%nat) by lia; lia).
        rewrite (Hz _ (d - 1)%nat) by (intros i Hi; rewrite (H0 (d + (n - d) + i)%nat) by lia; lia).
        rewrite (Hz _ (S k - n - (d - 1))%nat) by (intros i Hi; rewrite (H0 (d + (n - d) + (d - 1 + i))%nat) by lia; lia).
        rewrite !Z.add_0_r, Z.add_0_l. apply total_ext. intros i Hi. f_equal. f_equal. lia.
    + clear m sum HI. intros [m sum] (w & Hw & How & Hm & Hs & Hv).
      replace (2 * n - (n + n))%nat with 0%nat in Hm by lia. cbn [replicate] in Hm. rewrite app_nil_r in Hm. rewrite Hm.
      rewrite read_all_some. apply wp_bind, wp_ok.
      replace (n + n)%nat with (2 * n)%nat in * by lia. unfold n in Hv at 2. rewrite conv_square in Hv.
      assert (Hsum0 : sum = 0).
      { pose proof (bval_bound bs Ho) as Hb. fold n in Hb. pose proof (bval_bound w How) as Hbw.
        assert (bval bs * bval bs < p32 (2 * n)).
        { replace (2 * n)%nat with (n + n)%nat by lia. rewrite p32_add. nia. }
        pose proof (p32_pos (2 * n)). nia. }
      rewrite Hsum0, Z.mul_0_r, Z.add_0_r in Hv.
      apply wp_bind. eapply wp_mono; [apply remove_leading_zeros_ok; cbn [bigits]; [done|]|].
      * intros ->. cbn in Hw. lia.
      * cbn [bigits bexp]. intros y (H1 & H2 & H3 & H4 & H5). apply wp_ok. cbn [bexp bigits]. rewrite H1, H3, Hv.
        split_and!; try done. lia.
Qed.

Lemma assign_pow10_ok exp : 0 <= exp < 2 ^ 30 ->
  wp (assign_pow10 exp) (fun x => ok (bigits x) /\ top (bigits x) /\ bexp x = exp / 32 /\
    bval (bigits x) = 5 ^ exp * 2 ^ (exp mod 32) /\ val x = 10 ^ exp).
Proof.
  intros He. unfold assign_pow10. destruct (Z.leb_spec 0 exp) as [_|]; [|lia]. cbn [asserted].
  destruct (decide (exp = 0)) as [->|Hne].
  - eapply wp_mono; [apply assign_ok; lia|]. intros x (H1 & H2 & H3 & H4). unfold val. rewrite H1, H4. split_and!; done.
  - apply wp_bind.
    apply (wp_loop (fun b => exists j, b = 2 ^ Z.of_nat j /\ (j <= 31)%nat /\ (j = 0%nat \/ 2 ^ (Z.of_nat j - 1) <= exp))
      (fun b => 31 - Z.to_nat (Z.log2 b))%nat).
    + cbn. lia.
    + exists 0%nat. split_and!; [done|lia|by left].
    + intros b (j & -> & Hj & Hb). apply wp_ok. rewrite Z.log2_pow2 by lia.
      assert (Hj2 : 2 * 2 ^ Z.of_nat j = 2 ^ Z.of_nat (S j)) by (rewrite Nat2Z.inj_succ, Z.pow_succ_r by lia; done).
      destruct (decide (2 ^ Z.of_nat j <= exp)) as [Hle|Hgt].
      * assert (Hj30 : (j < 30)%nat).
        { destruct (decide (j < 30)%nat) as [|Hge]; [done|]. exfalso.
          assert (2 ^ 30 <= 2 ^ Z.of_nat j) by (apply Z.pow_le_mono_r; lia). lia. }
        rewrite Z.mul_comm, Hj2, Z.log2_pow2 by lia. split; [|lia]. exists (S j). split_and!; [done|lia|right].
        replace (Z.of_nat (S j) - 1) with (Z.of_nat j) by lia. done.
      * destruct j as [|j]; [change (2 ^ Z.of_nat 0) with 1 in Hgt; lia|].
        destruct Hb as [|Hb]; [done|]. replace (Z.of_nat (S j) - 1) with (Z.of_nat j) in Hb by lia.
        assert (Hd : 2 ^ Z.of_nat (S j) / 2 = 2 ^ Z.of_nat j).
        { rewrite Nat2Z.inj_succ, Z.pow_succ_r, Z.mul_comm by lia. apply Z.div_mul. lia. }
        rewrite Hd. apply wp_bind. eapply wp_mono; [apply assign_ok; lia|]. intros x0 (H1 & H2 & H3 & H4).
        apply wp_bind.
        assert (Hlt2 : exp < 2 * 2 ^ Z.of_nat j) by (rewrite Nat2Z.inj_succ, Z.pow_succ_r in Hgt by lia; lia).
        apply (wp_loop (fun '(x, b) => exists i : nat, (i <= j)%nat /\ b = 2 ^ Z.of_nat i / 2 /\ bexp x = 0 /\ ok (bigits x) /\ top (bigits x) /\
             bval (bigits x) = 5 ^ (exp / 2 ^ Z.of_nat i) /\ Z.of_nat (length (bigits x)) <= exp / 2 ^ Z.of_nat i)
          (fun '(x, b) => Z.to_nat (Z.log2 (2 * b)))).
        -- assert (2 ^ Z.of_nat j / 2 <= 2 ^ 30).
           { apply Z.div_le_upper_bound; [lia|]. change (2 * 2 ^ 30) with (2 ^ 31). apply Z.pow_le_mono_r; lia. }
           assert (Z.log2 (2 * (2 ^ Z.of_nat j / 2)) <= Z.log2 (2 ^ 31)) by (apply Z.log2_le_mono; lia).
           change (Z.log2 (2 ^ 31)) with 31 in *. lia.
        -- exists j. assert (Hq : exp / 2 ^ Z.of_nat j = 1).
           { symmetry. apply (Z.div_unique exp _ 1 (exp - 2 ^ Z.of_nat j)); lia. }
           rewrite Hq. split_and!; try done.
           pose proof (top_low _ H2 H3) as Hl. rewrite H4 in Hl.
           destruct (decide (length (bigits x0) <= 1)%nat) as [|Hg]; [lia|]. exfalso.
           assert (p32 1 <= p32 (length (bigits x0) - 1)) by (unfold p32; apply Z.pow_le_mono_r; lia).
           change (p32 1) with BB in *. lia.
        -- intros [x b] (i & Hi & -> & Hx1 & Hx2 & Hx3 & Hx4 & Hx5).
           destruct i as [|i].
           { change (2 ^ Z.of_nat 0 / 2) with 0. rewrite decide_False by lia. apply wp_ok.
             change (2 ^ Z.of_nat 0) with 1 in *. rewrite Z.div_1_r in *.
             eapply wp_mono; [apply shift_left_ok; [lia|done|lia]|]. intros y (_ & Y2 & Y3 & Y4 & Y5 & Y6).
             rewrite Y4, Y5, Y6, Hx1, Hx4. split_and!; auto. unfold val. rewrite Hx1, Hx4, Z.mul_1_r.
             by rewrite <- Z.pow_mul_l. }
           assert (Hdi : 2 ^ Z.of_nat (S i) / 2 = 2 ^ Z.of_nat i).
           { rewrite Nat2Z.inj_succ, Z.pow_succ_r, Z.mul_comm by lia. apply Z.div_mul. lia. }
           rewrite Hdi. pose proof (pow2_pos (Z.of_nat i) ltac:(lia)) as Hpi. rewrite decide_True by lia.
           set (q := exp / 2 ^ Z.of_nat (S i)) in *.
           assert (Hq : exp / 2 ^ Z.of_nat i / 2 = q).
           { unfold q. rewrite Z.div_div by lia. f_equal. rewrite Nat2Z.inj_succ, Z.pow_succ_r by lia. lia. }
           assert (Hqb : q < 2 ^ 30).
           { unfold q. apply Z.div_lt_upper_bound; [apply pow2_pos; lia|]. pose proof (pow2_pos (Z.of_nat (S i)) ltac:(lia)). nia. }
           assert (Hq0 : 0 <= q) by (unfold q; apply Z.div_pos; [lia|apply pow2_pos; lia]).
           pose proof (Z.div_mod (exp / 2 ^ Z.of_nat i) 2 ltac:(lia)) as Hdm. rewrite Hq in Hdm.
           apply wp_bind. eapply wp_mono.
           { apply square_ok; [done| |lia]. intros E. rewrite E in Hx3. by destruct Hx3 as (? & ? & _). }
           intros y (Y1 & Y2 & Y3 & Y4 & Y5). rewrite Hx1 in Y1. rewrite Hx4, <- Z.pow_add_r in Y3 by lia.
           assert (Ytop : top (bigits y)).
           { destruct Y4 as [|E]; [done|]. rewrite E in Y3. cbn in Y3. pose proof (Z.pow_pos_nonneg 5 (q + q)). lia. }
           assert (Hbit : Z.land exp (2 ^ Z.of_nat i) <> 0 <-> (exp / 2 ^ Z.of_nat i) mod 2 = 1).
           { rewrite <- Z.bit0_mod, <- Z.shiftr_div_pow2, Z.shiftr_spec, Z.add_0_l by lia.
             rewrite <- (Z.mul_1_l (2 ^ Z.of_nat i)), <- Z.shiftl_mul_pow2 by lia. split.
             - intros Hnz. destruct (Z.testbit exp (Z.of_nat i)) eqn:Et; [done|]. exfalso. apply Hnz.
               apply Z.bits_inj'. intros k Hk. rewrite Z.land_spec, Z.bits_0, Z.shiftl_mul_pow2, Z.mul_1_l, Z.pow2_bits_eqb by lia.
               destruct (Z.eqb_spec (Z.of_nat i) k) as [<-|]; [by rewrite Et|apply andb_false_r].
             - intros Ht Hz. assert (Et : Z.testbit exp (Z.of_nat i) = true) by (destruct (Z.testbit exp (Z.of_nat i)); done).
               assert (Hf : Z.testbit (Z.land exp (Z.shiftl 1 (Z.of_nat i))) (Z.of_nat i) = true).
               { rewrite Z.land_spec, Et, Z.shiftl_mul_pow2, Z.mul_1_l, Z.pow2_bits_true by lia. done. }
               by rewrite Hz, Z.bits_0 in Hf. }
           assert (Hlog : (Z.to_nat (Z.log2 (2 * (2 ^ Z.of_nat i / 2))) < Z.to_nat (Z.log2 (2 * 2 ^ Z.of_nat i)))%nat).
           { rewrite <- Z.pow_succ_r, Z.log2_pow2 by lia. destruct i as [|i].
             - vm_compute. lia.
             - rewrite Nat2Z.inj_succ, (Z.pow_succ_r 2 (Z.of_nat i)), (Z.mul_comm 2 (2 ^ Z.of_nat i)), Z.div_mul by lia.
               rewrite <- Z.pow_succ_r, Z.log2_pow2 by lia. lia. }
           apply wp_bind. destruct (decide (Z.land exp (2 ^ Z.of_nat i) <> 0)) as [Hb1|Hb1].
           ++ rewrite times_int_ok by lia. apply wp_ok, wp_ok. split; [|done].
              destruct (multiply32_ok y 5 ltac:(lia) Y2) as (M1 & M2 & M3 & M4 & M5 & _).
              apply Hbit in Hb1. exists i. assert (Eq : exp / 2 ^ Z.of_nat i = q + q + 1) by lia. rewrite Eq.
              split_and!; try done; try lia; auto.
              rewrite M3, Y3, (Z.pow_add_r 5 (q + q) 1) by lia. done.
           ++ apply wp_ok, wp_ok. split; [|done]. exists i.
              assert (Eq : exp / 2 ^ Z.of_nat i = q + q).
              { pose proof (Z.mod_pos_bound (exp / 2 ^ Z.of_nat i) 2 ltac:(lia)). rewrite Hbit in Hb1. lia. }
              rewrite Eq. split_and!; try done; lia.
Qed.
