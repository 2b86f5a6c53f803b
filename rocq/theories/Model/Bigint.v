(** Model of the big integers behind exact digit generation: class bigint and format_dragon,
    /repo/include/efp/fmt/format.h:3060-3483. Line numbers are those of format.h. *)
From Verif Require Import Base.Cpp Model.FmtInt Model.Dragonbox.
Local Open Scope Z_scope.

(** class bigint, 3060-3082: bigits of 32 bits, the least significant first, and the number of zero bigits that
    are left out below them. The buffer grows as it has to. *)
Record bigint : Type := Bigint { bigits : list Z; bexp : Z }.
(** uint128_t is a number of 128 bits: unsigned __int128. *)

(** subtract_bigits, 3084-3088: the bigit and the borrow. *)
Definition subtract_bigits (bs : list Z) (index : nat) (other borrow : Z) : res (list Z * Z) :=
  let* b := get bs index in
  let result := wrap 64 (b - other - borrow) in
  let* bs := put bs index (wrap 32 result) in
  Ok (bs, wrap 32 (Z.shiftr result 63)).

(** remove_leading_zeros, 3090-3095. [num] is num_bigits + 1; bigits_ is never empty. *)
Definition remove_leading_zeros (x : bigint) : res bigint :=
  let* num := loop (S (length (bigits x))) (fun num =>
    if decide (1 < num)%nat then
      let* b := get (bigits x) (num - 1) in
      Ok (if decide (b = 0) then inl (num - 1)%nat else inr num)
    else Ok (inr num)) (length (bigits x)) in
  Ok (Bigint (take num (bigits x)) (bexp x)).

(** num_bigits, 3179-3181. *)
Definition num_bigits (x : bigint) : Z := Z.of_nat (length (bigits x)) + bexp x.

(** compare, 3207-3224. [i] and [j] are the indices plus one. *)
Definition compare (lhs rhs : bigint) : res Z :=
  if decide (num_bigits lhs <> num_bigits rhs) then
    Ok (if decide (num_bigits lhs > num_bigits rhs) then 1 else -1)
  else
    let i := length (bigits lhs) in let j := length (bigits rhs) in
    let en := (i - j)%nat in
    loop (S (i - en)) (fun '(i, j) =>
      if decide (en < i)%nat then
        let* lhs_bigit := get (bigits lhs) (i - 1) in
        let* rhs_bigit := get (bigits rhs) (j - 1) in
        if decide (lhs_bigit <> rhs_bigit) then Ok (inr (if decide (lhs_bigit > rhs_bigit) then 1 else -1))
        else Ok (inl (i - 1, j - 1)%nat)
      else if decide (i <> j) then Ok (inr (if decide (j < i)%nat then 1 else -1))
      else Ok (inr 0)) (i, j).

(** subtract_aligned, 3097-3108. The loop on the last borrow stays at one bigit: it ends in its second turn at the
    latest. *)
Definition subtract_aligned (x other : bigint) : res bigint :=
  asserted (bexp x <=? bexp other) (
    let* c := compare x other in
    asserted (0 <=? c) (
      let d := Z.to_nat (bexp other - bexp x) in
      let n := length (bigits other) in
      let* (bs, borrow) := for_up n 0 (fun j '(bs, borrow) =>
        let* o := get (bigits other) j in
        subtract_bigits bs (d + j) o borrow) (bigits x, 0) in
      let* bs := loop 3 (fun '(bs, borrow) =>
        if decide (borrow > 0) then let* r := subtract_bigits bs (d + n) 0 borrow in Ok (inl r)
        else Ok (inr bs)) (bs, borrow) in
      remove_leading_zeros (Bigint bs (bexp x)))).

(** multiply(uint32_t), 3110-3120, with multiply(UInt) for uint128_t, 3122-3140: the bigits. *)
Definition multiply32 (x : bigint) (value : Z) : bigint :=
  let fix go bs carry :=
    match bs with
    | [] => if decide (carry <> 0) then [carry] else []
    | b :: bs =>
        let result := wrap 64 (b * value + carry) in
        wrap 32 result :: go bs (wrap 32 (Z.shiftr result 32))
    end in
  Bigint (go (bigits x) 0) (bexp x).
Definition carry_bigits (carry : Z) : res (list Z) :=
  loop 5 (fun '(bs, carry) =>
    Ok (if decide (carry <> 0) then inl (bs ++ [wrap 32 carry], Z.shiftr carry 32) else inr bs)) ([], carry).
Definition multiply128 (x : bigint) (value : Z) : res bigint :=
  let lower := wrap 64 value in
  let upper := Z.shiftr value 64 in
  let fix go bs carry :=
    match bs with
    | [] => carry_bigits carry
    | b :: bs =>
        let result := wrap 128 (lower * b + wrap 32 carry) in
        let carry := wrap 128 (wrap 128 (Z.shiftl (wrap 128 (upper * b)) 32) + Z.shiftr result 32 + Z.shiftr carry 32) in
        let* r := go bs carry in Ok (wrap 32 result :: r)
    end in
  let* bs := go (bigits x) 0 in
  Ok (Bigint bs (bexp x)).
(** operator*=, 3200-3205, of an int and of a uint128_t. *)
Definition times_int (x : bigint) (value : Z) : res bigint :=
  asserted (0 <? value) (Ok (multiply32 x value)).
Definition times_u128 (x : bigint) (value : Z) : res bigint :=
  asserted (0 <? value) (multiply128 x value).

(** assign and operator=, 3142-3153 and 3173-3177, of a positive number: below 2^128, so four bigits at most. *)
Definition assign (n : Z) : res bigint :=
  asserted (0 <? n) (
    let* bs := loop 4 (fun '(bs, n) =>
      let bs := bs ++ [wrap 32 n] in let n := Z.shiftr n 32 in
      Ok (if decide (n <> 0) then inl (bs, n) else inr bs)) ([], n) in
    Ok (Bigint bs 0)).

(** operator<<=, 3183-3198. *)
Definition shift_left (x : bigint) (shift : Z) : res bigint :=
  asserted (0 <=? shift) (
    let exp := bexp x + shift / 32 in
    let shift := shift mod 32 in
    if decide (shift = 0) then Ok (Bigint (bigits x) exp)
    else
      let fix go bs carry :=
        match bs with
        | [] => if decide (carry <> 0) then [carry] else []
        | b :: bs => wrap 32 (wrap 32 (Z.shiftl b shift) + carry) :: go bs (Z.shiftr b (32 - shift))
        end in
      Ok (Bigint (go (bigits x) 0) exp)).

(** add_compare, 3226-3253. *)
Definition get_bigit (n : bigint) (i : Z) : res Z :=
  if decide (bexp n <= i /\ i < num_bigits n) then get (bigits n) (Z.to_nat (i - bexp n)) else Ok 0.
Definition add_compare (lhs1 lhs2 rhs : bigint) : res Z :=
  let max_lhs_bigits := Z.max (num_bigits lhs1) (num_bigits lhs2) in
  let num_rhs_bigits := num_bigits rhs in
  if decide (max_lhs_bigits + 1 < num_rhs_bigits) then Ok (-1)
  else if decide (max_lhs_bigits > num_rhs_bigits) then Ok 1
  else
    let min_exp := Z.min (Z.min (bexp lhs1) (bexp lhs2)) (bexp rhs) in
    loop (S (Z.to_nat (num_rhs_bigits - min_exp))) (fun '(i, borrow) =>
      if decide (min_exp <= i) then
        let* b1 := get_bigit lhs1 i in
        let* b2 := get_bigit lhs2 i in
        let sum := wrap 64 (b1 + b2) in
        let* rhs_bigit := get_bigit rhs i in
        if decide (sum > wrap 64 (rhs_bigit + borrow)) then Ok (inr 1)
        else
          let borrow := wrap 64 (rhs_bigit + borrow - sum) in
          if decide (borrow > 1) then Ok (inr (-1))
          else Ok (inl (i - 1, wrap 64 (Z.shiftl borrow 32)))
      else Ok (inr (if decide (borrow <> 0) then -1 else 0))) (num_rhs_bigits - 1, 0).

(** square, 3278-3303. The new bigits are not initialised. *)
Definition square (x : bigint) : res bigint :=
  let n := bigits x in
  let num := length n in
  let* (m, sum) := for_up num 0 (fun k '(m, sum) =>
    let* sum := for_up (S k) 0 (fun i sum =>
      let* a := get n i in let* b := get n (k - i) in
      Ok (wrap 128 (sum + wrap 64 (a * b)))) sum in
    let* m := put m k (Some (wrap 32 sum)) in
    Ok (m, Z.shiftr sum 32)) (replicate (2 * num) None, 0) in
  let* (m, _) := for_up num num (fun k '(m, sum) =>
    let j := (num - 1)%nat in
    let i := (k - j)%nat in
    let* sum := for_up (num - i) 0 (fun t sum =>
      let* a := get n (i + t) in let* b := get n (j - t) in
      Ok (wrap 128 (sum + wrap 64 (a * b)))) sum in
    let* m := put m k (Some (wrap 32 sum)) in
    Ok (m, Z.shiftr sum 32)) (m, sum) in
  let* bs := read_all m in
  let* r := remove_leading_zeros (Bigint bs (bexp x)) in
  Ok (Bigint (bigits r) (bexp r * 2)).

(** assign_pow10, 3255-3276; int has 32 bits. *)
Definition assign_pow10 (exp : Z) : res bigint :=
  asserted (0 <=? exp) (
    if decide (exp = 0) then assign 1
    else
      let* bitmask := loop 32 (fun bitmask =>
        Ok (if decide (bitmask <= exp) then inl (bitmask * 2) else inr bitmask)) 1 in
      let bitmask := bitmask / 2 in
      let* x := assign 5 in
      let bitmask := bitmask / 2 in
      let* x := loop 32 (fun '(x, bitmask) =>
        if decide (bitmask <> 0) then
          let* x := square x in
          let* x := if decide (Z.land exp bitmask <> 0) then times_int x 5 else Ok x in
          Ok (inl (x, bitmask / 2))
        else Ok (inr x)) (x, bitmask) in
      shift_left x exp).

(** align, 3305-3317. The bigits are moved up, from the top one on, and zeros put below them. *)
Definition align (x other : bigint) : res bigint :=
  let d := bexp x - bexp other in
  if decide (d <= 0) then Ok x
  else
    let n := length (bigits x) in
    let* m := for_down n 0 (fun i m =>
      let* b := get m i in put m (i + Z.to_nat d) b)
      ((Some <$> bigits x) ++ replicate (Z.to_nat d) None) in
    let* m := for_up (Z.to_nat d) 0 (fun i m => put m i (Some 0)) m in
    let* bs := read_all m in
    Ok (Bigint bs (bexp x - d)).

(** divmod_assign, 3319-3333: the remainder and the quotient, an int. [fuel] bounds the turns; a digit is below
    ten. *)
Definition divmod_assign (x divisor : bigint) : res (bigint * Z) :=
  let* c := compare x divisor in
  if decide (c < 0) then Ok (x, 0)
  else
    let* top := get (bigits divisor) (length (bigits divisor) - 1) in
    asserted (negb (top =? 0)) (
      let* x := align x divisor in
      loop 16 (fun '(x, quotient) =>
        let* x := subtract_aligned x divisor in
        let quotient := quotient + 1 in
        let* c := compare x divisor in
        Ok (if decide (0 <= c) then inl (x, quotient) else inr (x, quotient))) (x, 0)).

(** ** format_dragon *)
(** The numerator and the denominator, 3353-3398. The numbers lower and upper are for the shortest format only. *)
Definition dragon_start (f e exp10 : Z) (predecessor_closer : bool) : res (bigint * bigint) :=
  let shift := if predecessor_closer then 2 else 1 in
  if decide (0 <= e) then
    let* numerator := assign f in
    let* numerator := shift_left numerator (e + shift) in
    let* denominator := assign_pow10 exp10 in
    let* denominator := shift_left denominator shift in
    Ok (numerator, denominator)
  else if decide (exp10 < 0) then
    let* numerator := assign_pow10 (- exp10) in
    let* numerator := times_u128 numerator f in
    let* numerator := shift_left numerator shift in
    let* denominator := assign 1 in
    let* denominator := shift_left denominator (shift - e) in
    Ok (numerator, denominator)
  else
    let* numerator := assign f in
    let* numerator := shift_left numerator shift in
    let* denominator := assign_pow10 exp10 in
    let* denominator := shift_left denominator (shift - e) in
    Ok (numerator, denominator).

(** The digits are chars; ['0' + 10] is 58. A carry goes up, 3466-3470 and 3849-3852 (there with [> '9'], here with
    [== '0' + 10], which is the same of digits). *)
Definition carry_up (buf : list Z) : res (list Z) :=
  let* (buf, _) := loop (S (length buf)) (fun '(buf, i) =>
    if decide (0 < i)%nat then
      let* c := get buf i in
      if decide (57 < c) then
        let* buf := put buf i 48 in
        let* d := get buf (i - 1) in
        let* buf := put buf (i - 1) (d + 1) in Ok (inl (buf, (i - 1)%nat))
      else Ok (inr (buf, i))
    else Ok (inr (buf, i))) (buf, (length buf - 1)%nat) in
  Ok buf.

(** format_dragon without fixup and for a number of digits, 3343-3401 and 3445-3483: the digits and exp10. With
    num_digits < 0 it is the shortest format, which is not modelled. *)
Definition format_dragon (f e : Z) (predecessor_closer fixed : bool) (num_digits exp10 : Z) : res (list Z * Z) :=
  asserted (0 <=? num_digits) (
    let* (numerator, denominator) := dragon_start f e exp10 predecessor_closer in
    let exp10 := exp10 - (num_digits - 1) in
    if decide (num_digits <= 0) then
      let* denominator := times_int denominator 10 in
      let* c := add_compare numerator numerator denominator in
      Ok ([if decide (c > 0) then 49 else 48], exp10)
    else
      let* (buf, numerator) := for_up (Z.to_nat (num_digits - 1)) 0 (fun _ '(buf, numerator) =>
        let* (numerator, digit) := divmod_assign numerator denominator in
        let* numerator := times_int numerator 10 in
        Ok (buf ++ [48 + digit], numerator)) ([], numerator) in
      let* (numerator, digit) := divmod_assign numerator denominator in
      let* result := add_compare numerator numerator denominator in
      if decide (result > 0 \/ (result = 0 /\ digit mod 2 <> 0)) then
        if decide (digit = 9) then
          let* buf := carry_up (buf ++ [58]) in
          let* b0 := get buf 0 in
          if decide (b0 = 58) then
            let* buf := put buf 0 49 in
            if fixed then Ok (buf ++ [48], exp10) else Ok (buf, exp10 + 1)
          else Ok (buf, exp10)
        else Ok (buf ++ [48 + (digit + 1)], exp10)
      else Ok (buf ++ [48 + digit], exp10)).
