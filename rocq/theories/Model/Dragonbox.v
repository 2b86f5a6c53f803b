(** Model of the shortest-decimal algorithm for float and double: namespace dragonbox of
    /repo/include/efp/fmt/format-inl.h and format.h.

    Line numbers are those of format-inl.h unless format.h is named. Unsigned numbers are [Z] with
    every wrap-around written out; signed ints are small throughout (at most 2985 * 1741647 < 2^33 in
    size, and at most 1074 * 1741647 < 2^31 for the exponents that occur), so they do not wrap. *)
From Verif Require Import Base.Cpp.
Local Open Scope Z_scope.

(** Unsigned arithmetic of [w] bits: only the low [w] bits stay. *)
Definition wrap (w n : Z) : Z := Z.land n (Z.ones w).
(** Shifts of a [w]-bit unsigned number; shifting by [w] or more, or backwards, is undefined. *)
Definition shl (w n s : Z) : res Z :=
  if (0 <=? s) && (s <? w) then Ok (wrap w (Z.shiftl n s)) else UB Overflow.
Definition shr (w n s : Z) : res Z :=
  if (0 <=? s) && (s <? w) then Ok (Z.shiftr n s) else UB Overflow.
(** EFP_FMT_ASSERT, core.h:338-348, of a debug build: a failed one ends the program, so the call does not
    return. *)
Definition asserted {A} (c : bool) (k : res A) : res A := if c then k else Diverge.

(** uint128_fallback, format.h:391-518: the high and the low half. *)
Definition u128 : Type := Z * Z.
(** umul128, format.h:1643-1675, with EFP_FMT_USE_INT128. *)
Definition umul128 (x y : Z) : u128 := (Z.shiftr (x * y) 64, wrap 64 (x * y)).
(** umul128, the same lines, without 128-bit integers. *)
Definition umul128_portable (x y : Z) : u128 :=
  let mask := 2 ^ 32 - 1 in
  let a := Z.shiftr x 32 in let b := Z.land x mask in
  let c := Z.shiftr y 32 in let d := Z.land y mask in
  let ac := wrap 64 (a * c) in let bc := wrap 64 (b * c) in
  let ad := wrap 64 (a * d) in let bd := wrap 64 (b * d) in
  let intermediate := wrap 64 (Z.shiftr bd 32 + Z.land ad mask + Z.land bc mask) in
  (wrap 64 (ac + Z.shiftr intermediate 32 + Z.shiftr ad 32 + Z.shiftr bc 32),
   wrap 64 (wrap 64 (Z.shiftl intermediate 32) + Z.land bd mask)).
(** operator+=(uint64_t), format.h:494-516. *)
Definition u128_add64 (x : u128) (n : Z) : u128 :=
  let lo := wrap 64 (snd x + n) in (wrap 64 (fst x + (if lo <? n then 1 else 0)), lo).
(** umul128_upper64, format.h:1689-1698. *)
Definition umul128_upper64 (x y : Z) : Z := fst (umul128 x y).
(** umul192_upper128, format.h:1700-1705. *)
Definition umul192_upper128 (x : Z) (y : u128) : u128 :=
  u128_add64 (umul128 x (fst y)) (umul128_upper64 x (snd y)).
(** umul192_lower128, 184-190. *)
Definition umul192_lower128 (x : Z) (y : u128) : u128 :=
  let high := wrap 64 (x * fst y) in
  let high_low := umul128 x (snd y) in
  (wrap 64 (high + fst high_low), snd high_low).
(** umul96_upper64 and umul96_lower64, 178-182 and 192-196. *)
Definition umul96_upper64 (x y : Z) : Z := umul128_upper64 (wrap 64 (Z.shiftl x 32)) y.
Definition umul96_lower64 (x y : Z) : Z := wrap 64 (x * y).

(** floor_log10_pow2 and floor_log2_pow10, format.h:1676-1687; floor_log10_pow2_minus_log10_4_over_3, 198-202. *)
Definition floor_log10_pow2 (e : Z) : res Z :=
  asserted ((e <=? 2620) && (-2620 <=? e)) (Ok (Z.shiftr (e * 315653) 20)).
Definition floor_log2_pow10 (e : Z) : res Z :=
  asserted ((e <=? 1233) && (-1233 <=? e)) (Ok (Z.shiftr (e * 1741647) 19)).
Definition floor_log10_pow2_minus_log10_4_over_3 (e : Z) : res Z :=
  asserted ((e <=? 2936) && (-2985 <=? e)) (Ok (Z.shiftr (e * 631305 - 261663) 21)).

(** check_divisibility_and_divide_by_pow10<N>, 203-232, where 10^N is [divisor]: the quotient and whether it is
    exact. *)
Definition check_divisibility_and_divide_by_pow10 (divisor n : Z) : res (Z * bool) :=
  asserted (n <=? divisor * 10)
    (let magic_number := 2 ^ 16 / divisor + 1 in
     let n := wrap 32 (n * magic_number) in
     Ok (Z.shiftr n 16, Z.land n (2 ^ 16 - 1) <? magic_number)).

(** rotr, 165-174. *)
Definition rotr (w n r : Z) : Z := Z.lor (Z.shiftr n r) (wrap w (Z.shiftl n (w - r))).

(** The loops of remove_trailing_zeros, 1157-1169 and 1195-1207: [n] and the number of zeros removed. *)
Definition strip (w mod_inv_5 mod_inv_25 n s : Z) : res (Z * Z) :=
  let* (n, s) := loop 64 (fun '(n, s) =>
    let q := rotr w (wrap w (n * mod_inv_25)) 2 in
    Ok (if (2 ^ w - 1) / 100 <? q then inr (n, s) else inl (q, s + 2))) (n, s) in
  let q := rotr w (wrap w (n * mod_inv_5)) 1 in
  Ok (if q <=? (2 ^ w - 1) / 10 then (q, Z.lor s 1) else (n, s)).
(** remove_trailing_zeros(uint32_t&, int), 1150-1170. *)
Definition remove_trailing_zeros32 (n s : Z) : res (Z * Z) :=
  asserted (negb (n =? 0)) (strip 32 0xcccccccd 0xc28f5c29 n s).
(** remove_trailing_zeros(uint64_t&), 1172-1210. *)
Definition remove_trailing_zeros64 (n : Z) : res (Z * Z) :=
  asserted (negb (n =? 0))
    (let magic_number := 12379400392853802749 in
     let nm := umul128 n magic_number in
     if (Z.land (fst nm) (2 ^ (90 - 64) - 1) =? 0) && (snd nm <? magic_number)
     then remove_trailing_zeros32 (wrap 32 (Z.shiftr (fst nm) (90 - 64))) 8
     else strip 64 0xcccccccccccccccd 0x8f5c28f5c28f5c29 n 0).

(** float_info, format.h:1709-1737, with what numeric_limits says of the type: [digits - 1], [min_exponent] and
    [max_exponent]. *)
Record float_info : Type := {
  carrier_bits : Z; num_significand_bits : Z; min_exponent : Z; max_exponent : Z;
  exponent_bits : Z; kappa : Z; big_divisor : Z; small_divisor : Z; min_k : Z; max_k : Z;
  shorter_interval_tie_lower_threshold : Z; shorter_interval_tie_upper_threshold : Z }.
Definition float_info_float : float_info := {|
  carrier_bits := 32; num_significand_bits := 23; min_exponent := -125; max_exponent := 128;
  exponent_bits := 8; kappa := 1; big_divisor := 100; small_divisor := 10; min_k := -31; max_k := 46;
  shorter_interval_tie_lower_threshold := -35; shorter_interval_tie_upper_threshold := -35 |}.
Definition float_info_double : float_info := {|
  carrier_bits := 64; num_significand_bits := 52; min_exponent := -1021; max_exponent := 1024;
  exponent_bits := 11; kappa := 2; big_divisor := 1000; small_divisor := 100; min_k := -292; max_k := 341;
  shorter_interval_tie_lower_threshold := -77; shorter_interval_tie_upper_threshold := -77 |}.
(** exponent_mask and exponent_bias, format.h:1784-1795. *)
Definition exponent_mask (I : float_info) : Z :=
  Z.shiftl (2 ^ exponent_bits I - 1) (num_significand_bits I).
Definition exponent_bias (I : float_info) : Z := max_exponent I - 1.

(** cache_accessor<T>: what differs between float and double. [E] is cache_entry_type. *)
Record cache_accessor (E : Type) : Type := {
  get_cached_power : Z -> res E;
  compute_mul : Z -> E -> Z * bool;
  compute_delta : E -> Z -> res Z;
  compute_mul_parity : Z -> E -> Z -> res (bool * bool);
  compute_left_endpoint : E -> Z -> res Z;
  compute_right_endpoint : E -> Z -> res Z;
  compute_round_up : E -> Z -> res Z;
  divide_by_10_to_kappa_plus_1 : Z -> Z;
  remove_trailing_zeros : Z -> res (Z * Z) }.
Arguments get_cached_power {E}. Arguments compute_mul {E}. Arguments compute_delta {E}.
Arguments compute_mul_parity {E}. Arguments compute_left_endpoint {E}. Arguments compute_right_endpoint {E}.
Arguments compute_round_up {E}. Arguments divide_by_10_to_kappa_plus_1 {E}. Arguments remove_trailing_zeros {E}.

(** cache_accessor<float>, 261-355. *)
Definition pow10_significands_float : list Z := [
   0x81ceb32c4b43fcf5; 0xa2425ff75e14fc32; 0xcad2f7f5359a3b3f; 0xfd87b5f28300ca0e;
   0x9e74d1b791e07e49; 0xc612062576589ddb; 0xf79687aed3eec552; 0x9abe14cd44753b53;
   0xc16d9a0095928a28; 0xf1c90080baf72cb2; 0x971da05074da7bef; 0xbce5086492111aeb;
   0xec1e4a7db69561a6; 0x9392ee8e921d5d08; 0xb877aa3236a4b44a; 0xe69594bec44de15c;
   0x901d7cf73ab0acda; 0xb424dc35095cd810; 0xe12e13424bb40e14; 0x8cbccc096f5088cc;
   0xafebff0bcb24aaff; 0xdbe6fecebdedd5bf; 0x89705f4136b4a598; 0xabcc77118461cefd;
   0xd6bf94d5e57a42bd; 0x8637bd05af6c69b6; 0xa7c5ac471b478424; 0xd1b71758e219652c;
   0x83126e978d4fdf3c; 0xa3d70a3d70a3d70b; 0xcccccccccccccccd; 0x8000000000000000;
   0xa000000000000000; 0xc800000000000000; 0xfa00000000000000; 0x9c40000000000000;
   0xc350000000000000; 0xf424000000000000; 0x9896800000000000; 0xbebc200000000000;
   0xee6b280000000000; 0x9502f90000000000; 0xba43b74000000000; 0xe8d4a51000000000;
   0x9184e72a00000000; 0xb5e620f480000000; 0xe35fa931a0000000; 0x8e1bc9bf04000000;
   0xb1a2bc2ec5000000; 0xde0b6b3a76400000; 0x8ac7230489e80000; 0xad78ebc5ac620000;
   0xd8d726b7177a8000; 0x878678326eac9000; 0xa968163f0a57b400; 0xd3c21bcecceda100;
   0x84595161401484a0; 0xa56fa5b99019a5c8; 0xcecb8f27f4200f3a; 0x813f3978f8940985;
   0xa18f07d736b90be6; 0xc9f2c9cd04674edf; 0xfc6f7c4045812297; 0x9dc5ada82b70b59e;
   0xc5371912364ce306; 0xf684df56c3e01bc7; 0x9a130b963a6c115d; 0xc097ce7bc90715b4;
   0xf0bdc21abb48db21; 0x96769950b50d88f5; 0xbc143fa4e250eb32; 0xeb194f8e1ae525fe;
   0x92efd1b8d0cf37bf; 0xb7abc627050305ae; 0xe596b7b0c643c71a; 0x8f7e32ce7bea5c70;
   0xb35dbf821ae4f38c; 0xe0352f62a19e306f].
Definition float_cached_power (k : Z) : res Z :=
  asserted ((min_k float_info_float <=? k) && (k <=? max_k float_info_float))
    (get pow10_significands_float (Z.to_nat (k - min_k float_info_float))).
Definition accessor_float : cache_accessor Z := {|
  get_cached_power := float_cached_power;
  compute_mul := fun u cache => let r := umul96_upper64 u cache in (wrap 32 (Z.shiftr r 32), wrap 32 r =? 0);
  compute_delta := fun cache beta => let* d := shr 64 cache (64 - 1 - beta) in Ok (wrap 32 d);
  compute_mul_parity := fun two_f cache beta =>
    asserted ((1 <=? beta) && (beta <? 64))
      (let r := umul96_lower64 two_f cache in
       let* p := shr 64 r (64 - beta) in let* i := shr 64 r (32 - beta) in
       Ok (negb (Z.land p 1 =? 0), wrap 32 i =? 0));
  compute_left_endpoint := fun cache beta =>
    let* x := shr 64 (wrap 64 (cache - Z.shiftr cache (23 + 2))) (64 - 23 - 1 - beta) in Ok (wrap 32 x);
  compute_right_endpoint := fun cache beta =>
    let* x := shr 64 (wrap 64 (cache + Z.shiftr cache (23 + 1))) (64 - 23 - 1 - beta) in Ok (wrap 32 x);
  compute_round_up := fun cache beta =>
    let* x := shr 64 cache (64 - 23 - 2 - beta) in Ok (wrap 32 (wrap 32 x + 1) / 2);
  divide_by_10_to_kappa_plus_1 := fun n => wrap 32 (Z.shiftr (wrap 64 (n * 1374389535)) 37);
  remove_trailing_zeros := fun n => remove_trailing_zeros32 n 0 |}.

(** cache_accessor<double>, 357-1135, without EFP_FMT_USE_FULL_CACHE_DRAGONBOX (format.h:949-951). *)
Definition pow10_significands_double : list u128 := [
   (0xff77b1fcbebcdc4f, 0x25e8e89c13bb0f7b); (0xce5d73ff402d98e3, 0xfb0a3d212dc81290);
   (0xa6b34ad8c9dfc06f, 0xf42faa48c0ea481f); (0x86a8d39ef77164bc, 0xae5dff9c02033198);
   (0xd98ddaee19068c76, 0x3badd624dd9b0958); (0xafbd2350644eeacf, 0xe5d1929ef90898fb);
   (0x8df5efabc5979c8f, 0xca8d3ffa1ef463c2); (0xe55990879ddcaabd, 0xcc420a6a101d0516);
   (0xb94470938fa89bce, 0xf808e40e8d5b3e6a); (0x95a8637627989aad, 0xdde7001379a44aa9);
   (0xf1c90080baf72cb1, 0x5324c68b12dd6339); (0xc350000000000000, 0x0000000000000000);
   (0x9dc5ada82b70b59d, 0xf020000000000000); (0xfee50b7025c36a08, 0x02f236d04753d5b5);
   (0xcde6fd5e09abcf26, 0xed4c0226b55e6f87); (0xa6539930bf6bff45, 0x84db8346b786151d);
   (0x865b86925b9bc5c2, 0x0b8a2392ba45a9b3); (0xd910f7ff28069da4, 0x1b2ba1518094da05);
   (0xaf58416654a6babb, 0x387ac8d1970027b3); (0x8da471a9de737e24, 0x5ceaecfed289e5d3);
   (0xe4d5e82392a40515, 0x0fabaf3feaa5334b); (0xb8da1662e7b00a17, 0x3d6a751f3b936244);
   (0x95527a5202df0ccb, 0x0f37801e0c43ebc9); (0xf13e34aabb430a15, 0x647726b9e7c68ff0)].
Definition powers_of_5_64 : list Z := [
   0x0000000000000001; 0x0000000000000005; 0x0000000000000019; 0x000000000000007d;
   0x0000000000000271; 0x0000000000000c35; 0x0000000000003d09; 0x000000000001312d;
   0x000000000005f5e1; 0x00000000001dcd65; 0x00000000009502f9; 0x0000000002e90edd;
   0x000000000e8d4a51; 0x0000000048c27395; 0x000000016bcc41e9; 0x000000071afd498d;
   0x0000002386f26fc1; 0x000000b1a2bc2ec5; 0x000003782dace9d9; 0x00001158e460913d;
   0x000056bc75e2d631; 0x0001b1ae4d6e2ef5; 0x000878678326eac9; 0x002a5a058fc295ed;
   0x00d3c21bcecceda1; 0x0422ca8b0a00a425; 0x14adf4b7320334b9].
Definition double_cached_power (k : Z) : res u128 :=
  asserted ((min_k float_info_double <=? k) && (k <=? max_k float_info_double))
    (let compression_ratio := 27 in
     let cache_index := (k - min_k float_info_double) / compression_ratio in
     let kb := cache_index * compression_ratio + min_k float_info_double in
     let offset := k - kb in
     let* base_cache := get pow10_significands_double (Z.to_nat cache_index) in
     if offset =? 0 then Ok base_cache else
     let* a1 := floor_log2_pow10 (kb + offset) in let* a2 := floor_log2_pow10 kb in
     let alpha := a1 - a2 - offset in
     asserted ((0 <? alpha) && (alpha <? 64))
       (let* pow5 := get powers_of_5_64 (Z.to_nat offset) in
        let recovered_cache := umul128 (fst base_cache) pow5 in
        let middle_low := umul128 (snd base_cache) pow5 in
        let recovered_cache := u128_add64 recovered_cache (fst middle_low) in
        let* high_to_middle := shl 64 (fst recovered_cache) (64 - alpha) in
        let* middle_to_low := shl 64 (snd recovered_cache) (64 - alpha) in
        let* rl := shr 64 (snd recovered_cache) alpha in
        let* ml := shr 64 (snd middle_low) alpha in
        let recovered_cache := (Z.lor rl high_to_middle, Z.lor ml middle_to_low) in
        asserted (negb (wrap 64 (snd recovered_cache + 1) =? 0))
          (Ok (fst recovered_cache, wrap 64 (snd recovered_cache + 1))))).
Definition accessor_double : cache_accessor u128 := {|
  get_cached_power := double_cached_power;
  compute_mul := fun u cache => let r := umul192_upper128 u cache in (fst r, snd r =? 0);
  compute_delta := fun cache beta => let* d := shr 64 (fst cache) (64 - 1 - beta) in Ok (wrap 32 d);
  compute_mul_parity := fun two_f cache beta =>
    asserted ((1 <=? beta) && (beta <? 64))
      (let r := umul192_lower128 two_f cache in
       let* p := shr 64 (fst r) (64 - beta) in
       let* ih := shl 64 (fst r) beta in let* il := shr 64 (snd r) (64 - beta) in
       Ok (negb (Z.land p 1 =? 0), Z.lor ih il =? 0));
  compute_left_endpoint := fun cache beta =>
    shr 64 (wrap 64 (fst cache - Z.shiftr (fst cache) (52 + 2))) (64 - 52 - 1 - beta);
  compute_right_endpoint := fun cache beta =>
    shr 64 (wrap 64 (fst cache + Z.shiftr (fst cache) (52 + 1))) (64 - 52 - 1 - beta);
  compute_round_up := fun cache beta =>
    let* x := shr 64 (fst cache) (64 - 52 - 2 - beta) in Ok (wrap 64 (x + 1) / 2);
  divide_by_10_to_kappa_plus_1 := fun n => Z.shiftr (umul128_upper64 n 2361183241434822607) 7;
  remove_trailing_zeros := remove_trailing_zeros64 |}.

Section to_decimal.
  Context (I : float_info) {E : Type} (A : cache_accessor E).
  Let w := wrap (carrier_bits I).

  (** is_left_endpoint_integer_shorter_interval, 1141-1148. *)
  Definition is_left_endpoint_integer_shorter_interval (exponent : Z) : bool :=
    (2 <=? exponent) && (exponent <=? 3).

  (** shorter_interval_case, 1212-1254: the significand and the exponent of the decimal. *)
  Definition shorter_interval_case (exponent : Z) : res (Z * Z) :=
    let* minus_k := floor_log10_pow2_minus_log10_4_over_3 exponent in
    let* l := floor_log2_pow10 (- minus_k) in
    let beta := exponent + l in
    let* cache := get_cached_power A (- minus_k) in
    let* xi := compute_left_endpoint A cache beta in
    let* zi := compute_right_endpoint A cache beta in
    let xi := if is_left_endpoint_integer_shorter_interval exponent then xi else w (xi + 1) in
    let significand := zi / 10 in
    if xi <=? w (significand * 10) then
      let* (significand, s) := remove_trailing_zeros A significand in
      Ok (significand, minus_k + 1 + s)
    else
      let* significand := compute_round_up A cache beta in
      Ok (if (shorter_interval_tie_lower_threshold I <=? exponent)
             && (exponent <=? shorter_interval_tie_upper_threshold I)
          then if significand mod 2 =? 0 then significand else w (significand - 1)
          else if significand <? xi then w (significand + 1) else significand,
          minus_k).

  (** to_decimal, from the label small_divisor_case_label on, 1348-1380. *)
  Definition small_divisor_case (cache : E) (beta minus_k deltai two_fc significand r : Z) : res (Z * Z) :=
    let significand := w (significand * 10) in
    let dist := wrap 32 (r - deltai / 2 + small_divisor I / 2) in
    let approx_y_parity := negb (Z.land (Z.lxor dist (small_divisor I / 2)) 1 =? 0) in
    let* (dist, divisible_by_small_divisor) :=
      check_divisibility_and_divide_by_pow10 (small_divisor I) dist in
    let significand := w (significand + dist) in
    if negb divisible_by_small_divisor then Ok (significand, minus_k + kappa I) else
    let* (y_parity, y_is_integer) := compute_mul_parity A two_fc cache beta in
    Ok (if negb (Bool.eqb y_parity approx_y_parity) then w (significand - 1)
        else if y_is_integer && negb (significand mod 2 =? 0) then w (significand - 1)
        else significand,
        minus_k + kappa I).

  (** to_decimal, 1256-1381, from line 1286 on. *)
  Definition regular_case (significand exponent : Z) : res (Z * Z) :=
    let include := significand mod 2 =? 0 in
    let* lg := floor_log10_pow2 exponent in
    let minus_k := lg - kappa I in
    let* cache := get_cached_power A (- minus_k) in
    let* l := floor_log2_pow10 (- minus_k) in
    let beta := exponent + l in
    let* deltai := compute_delta A cache beta in
    let two_fc := w (Z.shiftl significand 1) in
    let* u := shl (carrier_bits I) (Z.lor two_fc 1) beta in
    let '(zi, z_is_integer) := compute_mul A u cache in
    let significand := divide_by_10_to_kappa_plus_1 A zi in
    let r := wrap 32 (w (zi - big_divisor I * significand)) in
    let big_divisor_case : res (Z * Z) :=
      let* (significand, s) := remove_trailing_zeros A significand in
      Ok (significand, minus_k + kappa I + 1 + s) in
    if r <? deltai then
      if (r =? 0) && (z_is_integer && negb include)
      then small_divisor_case cache beta minus_k deltai two_fc (w (significand - 1)) (big_divisor I)
      else big_divisor_case
    else if deltai <? r then small_divisor_case cache beta minus_k deltai two_fc significand r
    else
      let* (x_parity, x_is_integer) := compute_mul_parity A (w (two_fc - 1)) cache beta in
      if negb (x_parity || (x_is_integer && include)) then small_divisor_case cache beta minus_k deltai two_fc significand r
      else big_divisor_case.

  (** to_decimal, 1256-1285: [br] is the bits of the number. *)
  Definition to_decimal (br : Z) : res (Z * Z) :=
    let significand := Z.land br (2 ^ num_significand_bits I - 1) in
    let exponent := Z.shiftr (Z.land br (exponent_mask I)) (num_significand_bits I) in
    if negb (exponent =? 0) then
      let exponent := exponent - (exponent_bias I + num_significand_bits I) in
      if significand =? 0 then shorter_interval_case exponent
      else regular_case (Z.lor significand (2 ^ num_significand_bits I)) exponent
    else if significand =? 0 then Ok (0, 0)
    else regular_case significand (min_exponent I - num_significand_bits I - 1).
End to_decimal.

Definition to_decimal_double : Z -> res (Z * Z) := to_decimal float_info_double accessor_double.
Definition to_decimal_float : Z -> res (Z * Z) := to_decimal float_info_float accessor_float.
