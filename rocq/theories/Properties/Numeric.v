(** Properties of the integer functions, the order functions, the compile-time folds and swap. *)
From Verif Require Import Base.Cpp Model.Numeric Spec.NumericSpec Proofs.NumericProofs.
Local Open Scope Z_scope.

Definition i8 : ity := ITy 8 true.
Definition i32 : ity := ITy 32 true.
Definition i64 : ity := ITy 64 true.
Definition u16 : ity := ITy 16 false.
Definition u32 : ity := ITy 32 false.
Definition u64 : ity := ITy 64 false.

(** ** C62: reductions of integer sequences *)

(** max_elem and min_elem of a non-empty sequence: an element no other exceeds, or undercuts. *)
Theorem C62_extremes : forall t xs, 0 < bits t -> xs <> [] -> (forall x, x ∈ xs -> lo t <= x <= hi t) ->
  max_elem Z.ltb (lo t) xs ∈ xs /\ (forall x, x ∈ xs -> x <= max_elem Z.ltb (lo t) xs) /\
  min_elem Z.ltb (hi t) xs ∈ xs /\ (forall x, x ∈ xs -> min_elem Z.ltb (hi t) xs <= x).
Proof.
  intros t xs Hb Hne Hr. destruct xs as [|x xs]; [done|].
  assert (x ∈ x :: xs) as Hx by set_solver. pose proof (Hr x Hx) as Hrx.
  destruct (max_elem_ok Z.ltb Z_order (lo t) (x :: xs) x Hx) as [H1 H2]; [apply Z_at_most; lia|].
  destruct (min_elem_ok Z.ltb Z_order (hi t) (x :: xs) x Hx) as [H3 H4]; [apply Z_at_most; lia|].
  split_and!; [done|intros y Hy; by apply Z_at_most, H2|done|intros y Hy; by apply Z_at_most, H4].
Qed.
Print Assumptions C62_extremes.
Example C62_extremes_case :
  max_elem Z.ltb (lo i8) [3; -7; 5; -7] = 5 /\ min_elem Z.ltb (hi i8) [3; -7; 5; -7] = -7 /\ lo i8 = -128 /\ hi i8 = 127.
Proof. done. Qed.

(** sum and product: the mathematical result, if every partial result is representable. *)
Theorem C62_sum_product : forall t xs, 0 < bits t ->
  ((forall k, lo t <= zsum (take k xs) <= hi t) -> sum t xs = Ok (zsum xs)) /\
  ((forall k, lo t <= zprod (take k xs) <= hi t) -> product t xs = Ok (zprod xs)).
Proof.
  intros t xs Hb. split; intros H.
  - apply sum_ok; [done|]. intros k. apply in_range_spec, H.
  - apply product_ok; [done|]. intros k. apply in_range_spec, H.
Qed.
Print Assumptions C62_sum_product.
Example C62_sum_product_case : (forall k, lo i8 <= zsum (take k [100; -100; 27; 100]) <= hi i8) /\
  sum i8 [100; -100; 27; 100] = Ok 127 /\ product i8 [2; -4; 16] = Ok (-128).
Proof. split; [|done]. intros k. do 4 (destruct k as [|k]; [vm_compute; split; congruence|]). destruct k; vm_compute; split; congruence. Qed.

(** Unsigned types of at least 32 bits: modulo 2^bits, whatever the elements. *)
Theorem C62_unsigned : forall t xs, 32 <= bits t -> signed t = false ->
  sum t xs = Ok (zsum xs mod 2 ^ bits t) /\ product t xs = Ok (zprod xs mod 2 ^ bits t).
Proof. intros t xs Hb Hs. split; [by apply sum_wraps|by apply product_wraps]. Qed.
Print Assumptions C62_unsigned.
Example C62_unsigned_case : sum u32 [4294967295; 6] = Ok 5 /\ product u32 [65536; 65537] = Ok 65536.
Proof. done. Qed.

(** max_min: the range of the data, if it is representable. *)
Theorem C62_max_min : forall t xs m n, 0 < bits t -> (forall x, x ∈ xs -> lo t <= x <= hi t) ->
  m ∈ xs -> n ∈ xs -> (forall x, x ∈ xs -> n <= x <= m) -> lo t <= m - n <= hi t ->
  max_min t xs = Ok (m - n).
Proof.
  intros t xs m n Hb Hr Hm Hn Hmn Hd.
  destruct (C62_extremes t xs) as (H1 & H2 & H3 & H4); [done|by intros ->; apply elem_of_nil in Hm|done|].
  assert (max_elem Z.ltb (lo t) xs = m) as E1.
  { apply Z.le_antisymm; [by apply Hmn|by apply H2]. }
  assert (min_elem Z.ltb (hi t) xs = n) as E2.
  { apply Z.le_antisymm; [by apply H4|by apply Hmn]. }
  unfold max_min, op_sub. rewrite E1, E2. apply arith_ok; [done|]. by apply in_range_spec.
Qed.
Print Assumptions C62_max_min.
Example C62_max_min_case : max_min i8 [3; -7; 5] = Ok 12.
Proof. done. Qed.

(** ** C98: sum of integers when the total, but not every partial sum, is representable *)

(** In int and wider signed types, undefined as soon as one partial sum does not fit, even if the
    total does. *)
Theorem C98_sum_refuted : forall t xs k, 32 <= bits t -> signed t = true ->
  (zsum (take k xs) < lo t \/ hi t < zsum (take k xs)) -> sum t xs = UB Overflow.
Proof.
  intros t xs k Hb Hs Hk. apply sum_overflow with k; [done|done|].
  apply not_true_iff_false. rewrite in_range_spec. lia.
Qed.
Print Assumptions C98_sum_refuted.
Example C98_sum_refuted_case :
  sum i32 [2147483647; 1; -1] = UB Overflow /\ zsum [2147483647; 1; -1] = hi i32 /\ zsum (take 2 [2147483647; 1; -1]) = hi i32 + 1.
Proof. done. Qed.

(** In narrower types, and in unsigned ones, the total is right modulo 2^bits: right whenever the
    total itself is representable. *)
Theorem C98_sum_modular : forall t xs, 0 < bits t <= 16 \/ (32 <= bits t /\ signed t = false) ->
  (forall x, x ∈ xs -> lo t <= x <= hi t) -> lo t <= zsum xs <= hi t -> sum t xs = Ok (zsum xs).
Proof.
  intros t xs [Hb|[Hb Hs]] Hr Ht.
  - rewrite sum_narrow by (lia || by apply Forall_forall; intros; apply in_range_spec, Hr).
    rewrite conv_id; [done|lia|by apply in_range_spec].
  - rewrite sum_wraps by done. unfold lo, hi in Ht. rewrite Hs in Ht. by rewrite Z.mod_small by lia.
Qed.
Print Assumptions C98_sum_modular.
Example C98_sum_modular_case : sum i8 [100; 100; -90] = Ok 110 /\ zsum (take 2 [100; 100; -90]) = 200.
Proof. done. Qed.

(** ** C63: clamp, max, min, abs *)

Theorem C63_clamp : forall A (lt : A -> A -> bool), total_order lt -> forall lower upper x, at_most lt lower upper ->
  at_most lt lower (clamp lt lower upper x) /\ at_most lt (clamp lt lower upper x) upper /\
  (at_most lt lower x -> at_most lt x upper -> clamp lt lower upper x = x) /\
  (at_most lt upper x -> clamp lt lower upper x = upper) /\
  (at_most lt x lower -> clamp lt lower upper x = lower).
Proof. intros A lt Hlt lower upper x. apply clamp_spec, Hlt. Qed.
Print Assumptions C63_clamp.
Example C63_clamp_case : total_order Z.ltb /\ at_most Z.ltb (-3) 4 /\
  map (clamp Z.ltb (-3) 4) [-9; -3; 0; 4; 5] = [-3; -3; 0; 4; 4].
Proof. split; [apply Z_order|done]. Qed.

Theorem C63_max_min : forall A (lt : A -> A -> bool), total_order lt -> forall l r,
  (at_most lt l (max_ lt l r) /\ at_most lt r (max_ lt l r) /\ (max_ lt l r = l \/ max_ lt l r = r)) /\
  (at_most lt (min_ lt l r) l /\ at_most lt (min_ lt l r) r /\ (min_ lt l r = l \/ min_ lt l r = r)).
Proof. intros A lt Hlt l r. split; [by apply max_spec|by apply min_spec]. Qed.
Print Assumptions C63_max_min.
Example C63_max_min_case : max_ Z.ltb (-3) 4 = 4 /\ max_ Z.ltb 4 (-3) = 4 /\ min_ Z.ltb (-3) 4 = -3 /\ min_ Z.ltb 4 (-3) = -3.
Proof. done. Qed.

Theorem C63_abs : forall t x, 0 < bits t -> lo t <= x <= hi t -> (signed t = true -> x <> lo t) ->
  abs_ t x = Ok (Z.abs x).
Proof. intros t x Hb Hx Hlo. apply abs_ok; [done|by apply in_range_spec|done]. Qed.
Print Assumptions C63_abs.
Example C63_abs_case : abs_ i8 (-127) = Ok 127 /\ abs_ i8 5 = Ok 5 /\ lo i8 = -128 /\ abs_ u16 65535 = Ok 65535.
Proof. done. Qed.

(** At the most negative value: undefined for int and wider types, negative for narrower ones. *)
Theorem C63_abs_least : forall t, 0 < bits t -> signed t = true ->
  abs_ t (lo t) = if 32 <=? bits t then UB Overflow else Ok (lo t).
Proof.
  intros t Hb Hs. destruct (32 <=? bits t) eqn:E.
  - apply Z.leb_le in E. by apply abs_lo_wide.
  - apply Z.leb_gt in E. by apply abs_lo_narrow.
Qed.
Print Assumptions C63_abs_least.
Example C63_abs_least_case : abs_ i32 (-2147483648) = UB Overflow /\ abs_ i8 (-128) = Ok (-128).
Proof. done. Qed.

(** ** C99: clamp of integers of different types *)

(** Signed types of any widths: the clamped number. *)
Theorem C99_signed : forall tl tu tx lower upper x,
  signed tl = true -> signed tu = true -> signed tx = true -> 0 < bits tl -> 0 < bits tu -> 0 < bits tx ->
  lo tl <= lower <= hi tl -> lo tu <= upper <= hi tu -> lo tx <= x <= hi tx -> lower <= upper ->
  clamp_mixed tl tu tx lower upper x = Z.max lower (Z.min upper x).
Proof.
  intros tl tu tx lower upper x Sl Su Sx Bl Bu Bx Hl Hu Hx Hlu.
  rewrite clamp_signed by (done || by apply in_range_spec). unfold clamp.
  destruct (upper <? x) eqn:E; [apply Z.ltb_lt in E; lia|]. apply Z.ltb_ge in E.
  destruct (x <? lower) eqn:E2; [apply Z.ltb_lt in E2; lia|]. apply Z.ltb_ge in E2. lia.
Qed.
Print Assumptions C99_signed.
Example C99_signed_case : clamp_mixed i8 i64 i32 (-100) 5000000000 (-2000000) = -100.
Proof. done. Qed.

(** Non-negative numbers of any types: the clamped number. *)
Theorem C99_nonnegative : forall tl tu tx lower upper x, 0 < bits tl -> 0 < bits tu -> 0 < bits tx ->
  0 <= lower <= hi tl -> 0 <= upper <= hi tu -> 0 <= x <= hi tx -> lower <= upper ->
  clamp_mixed tl tu tx lower upper x = Z.max lower (Z.min upper x).
Proof.
  intros tl tu tx lower upper x Bl Bu Bx Hl Hu Hx Hlu.
  rewrite clamp_nonneg by done. unfold clamp.
  destruct (upper <? x) eqn:E; [apply Z.ltb_lt in E; lia|]. apply Z.ltb_ge in E.
  destruct (x <? lower) eqn:E2; [apply Z.ltb_lt in E2; lia|]. apply Z.ltb_ge in E2. lia.
Qed.
Print Assumptions C99_nonnegative.
Example C99_nonnegative_case : clamp_mixed i8 u32 i64 100 4000000000 5000000000 = 4000000000.
Proof. done. Qed.

(** Lower limit and number int, upper limit unsigned: every negative number is sent to the upper
    limit, although it lies below it. *)
Theorem C99_mixed_refuted : forall lower upper x,
  lo i32 <= lower <= x -> x < 0 -> 0 <= upper <= hi i32 ->
  clamp_mixed i32 u32 i32 lower upper x = upper /\ lower <= x <= upper /\ x <> upper.
Proof.
  intros lower upper x Hl Hx Hu. change (hi i32) with (2 ^ 31 - 1) in *. change (lo i32) with (- 2 ^ 31) in *.
  split; [|lia]. apply clamp_negative; [apply in_range_spec|apply in_range_spec|apply in_range_spec|done|].
  - change (hi int32) with (2 ^ 31 - 1). change (lo int32) with (- 2 ^ 31). lia.
  - change (hi int32) with (2 ^ 31 - 1). change (lo int32) with (- 2 ^ 31). lia.
  - change (hi uint32) with (2 ^ 32 - 1). change (lo uint32) with 0. lia.
  - change (hi int32) with (2 ^ 31 - 1). lia.
Qed.
Print Assumptions C99_mixed_refuted.
Example C99_mixed_refuted_case : clamp_mixed i32 u32 i32 (-10) 10 (-5) = 10.
Proof. done. Qed.

(** ** C100: Enum storage *)

(** As large as every alternative and no larger than needed; aligned for every alternative
    (alignments are powers of two). *)
Theorem C100_storage : forall sizes aligns,
  sizes <> [] -> (forall s, s ∈ sizes -> 0 < s < 2 ^ 64) ->
  aligns <> [] -> (forall a, a ∈ aligns -> exists k, 0 <= k < 64 /\ a = 2 ^ k) ->
  (forall s, s ∈ sizes -> s <= storage_size sizes) /\ storage_size sizes ∈ sizes /\
  (forall a, a ∈ aligns -> (a | storage_align aligns)) /\ storage_align aligns ∈ aligns.
Proof.
  intros sizes aligns Hs Hsr Ha Har.
  destruct (C62_extremes u64 sizes) as (H1 & H2 & _); [done|done|..].
  { intros s Hin. specialize (Hsr s Hin). change (lo u64) with 0. change (hi u64) with (2 ^ 64 - 1). lia. }
  destruct (C62_extremes u64 aligns) as (H3 & H4 & _); [done|done|..].
  { intros a Hin. destruct (Har a Hin) as (k & Hk & ->). change (lo u64) with 0. change (hi u64) with (2 ^ 64 - 1).
    assert (0 < 2 ^ k) by (apply Z.pow_pos_nonneg; lia).
    assert (2 ^ k < 2 ^ 64) by (apply Z.pow_lt_mono_r; lia). lia. }
  split_and!; [done|done| |done].
  intros a Hin. specialize (H4 a Hin). fold u64 in *. change (max_elem Z.ltb (lo u64) aligns) with (storage_align aligns) in *.
  destruct (Har a Hin) as (k & Hk & ->). destruct (Har _ H3) as (m & Hm & E). rewrite E in *.
  assert (k <= m) by (apply Z.pow_le_mono_r_iff with 2; lia).
  exists (2 ^ (m - k)). rewrite <- Z.pow_add_r by lia. f_equal. lia.
Qed.
Print Assumptions C100_storage.
Example C100_storage_case : storage_size [1; 24; 8] = 24 /\ storage_align [1; 8; 4] = 8.
Proof. done. Qed.

(** ** C101: compile-time folds *)

(** _all and _any. *)
Theorem C101_all_any : forall bs,
  (all_ bs = true <-> forall b, b ∈ bs -> b = true) /\ (any_ bs = true <-> true ∈ bs).
Proof. intros bs. split; [apply all_ok|apply any_ok]. Qed.
Print Assumptions C101_all_any.
Example C101_all_any_case : all_ [true; false] = false /\ any_ [false; true] = true /\ all_ [true; true] = true /\ any_ [false] = false.
Proof. done. Qed.

(** _sum and _product of size_t values: right if the result is at most 2^31 - 1. *)
Theorem C101_sum_product_partial : forall xs,
  (0 <= zsum xs <= 2 ^ 31 - 1 -> ct_sum u64 xs = Ok (zsum xs)) /\
  (0 <= zprod xs <= 2 ^ 31 - 1 -> ct_product u64 xs = Ok (zprod xs)).
Proof.
  intros xs. split; intros H.
  - change u64 with size64. rewrite ct_sum_eq. by rewrite through_int.
  - change u64 with size64. rewrite ct_product_eq. by rewrite through_int.
Qed.
Print Assumptions C101_sum_product_partial.
Example C101_sum_product_partial_case : ct_sum u64 [3; 5; 8] = Ok 16 /\ ct_product u64 [3; 5; 8] = Ok 120.
Proof. done. Qed.

(** Between 2^31 and 2^32 the result is wrong, always: it passes through int. *)
Theorem C101_sum_product_refuted : forall xs,
  (2 ^ 31 <= zsum xs < 2 ^ 32 -> ct_sum u64 xs = Ok (zsum xs + 2 ^ 64 - 2 ^ 32)) /\
  (2 ^ 31 <= zprod xs < 2 ^ 32 -> ct_product u64 xs = Ok (zprod xs + 2 ^ 64 - 2 ^ 32)).
Proof.
  intros xs. split; intros H.
  - change u64 with size64. rewrite ct_sum_eq. by rewrite through_int_large.
  - change u64 with size64. rewrite ct_product_eq. by rewrite through_int_large.
Qed.
Print Assumptions C101_sum_product_refuted.
Example C101_sum_product_refuted_case : ct_sum u64 [2000000000; 1000000000] = Ok 18446744072414584320.
Proof. done. Qed.

(** ** C102: swap *)

(** The two objects exchange their values and nothing else changes, whatever a moved-from object
    keeps; an object swapped with itself keeps its value. *)
Theorem C102_swap : forall A (mvd : A -> A) i j (l : list A) x y, l !! i = Some x -> l !! j = Some y ->
  exists l', swap_ mvd i j l = Ok l' /\ l' !! i = Some y /\ l' !! j = Some x /\
    (forall k, k <> i -> k <> j -> l' !! k = l !! k) /\ length l' = length l.
Proof.
  intros A mvd i j l x y Hi Hj. eexists. split; [by apply swap_ok|].
  assert (i < length l)%nat by (by eapply lookup_lt_Some). assert (j < length l)%nat by (by eapply lookup_lt_Some).
  split_and!.
  - destruct (decide (i = j)) as [<-|Hne].
    + rewrite list_lookup_insert by (by rewrite insert_length). congruence.
    + rewrite list_lookup_insert_ne by done. by apply list_lookup_insert.
  - apply list_lookup_insert. by rewrite insert_length.
  - intros k Hki Hkj. by rewrite !list_lookup_insert_ne.
  - by rewrite !insert_length.
Qed.
Print Assumptions C102_swap.
Example C102_swap_case : swap_ (fun _ => 0) 0 2 [5; 6; 7] = Ok [7; 6; 5] /\ swap_ (fun _ => 0) 1 1 [5; 6; 7] = Ok [5; 6; 7].
Proof. done. Qed.

(** ** C103: square *)

Theorem C103_square_partial : forall t x, 0 < bits t -> lo t <= x * x <= hi t -> square t x = Ok (x * x).
Proof. intros t x Hb H. apply square_ok; [done|by apply in_range_spec]. Qed.
Print Assumptions C103_square_partial.
Example C103_square_partial_case : square i8 (-11) = Ok 121.
Proof. done. Qed.

(** Unsigned 16-bit numbers are multiplied as int: undefined from 46341 on, where unsigned
    arithmetic would wrap. *)
Theorem C103_square_refuted : forall x, 46341 <= x <= hi u16 -> square u16 x = UB Overflow.
Proof. intros x H. by apply square16. Qed.
Print Assumptions C103_square_refuted.
Example C103_square_refuted_case : square u16 46341 = UB Overflow /\ square u16 46340 = Ok 43024 /\ square u32 46341 = Ok 2147488281.
Proof. vm_compute. done. Qed.
