(** Model of the integer writers in /repo/include/efp/fmt/format.h. Chars are their codes. *)
From Coq Require Import Strings.String Strings.Ascii.
From Verif Require Import Base.Cpp Model.Numeric.
Local Open Scope Z_scope.

(** The chars of a literal. *)
Definition lit (s : string) : list Z := (fun c => Z.of_N (N_of_ascii c)) <$> list_ascii_of_string s.

(** EFP_FMT_BUILTIN_CLZLL and EFP_FMT_BUILTIN_CLZ, of a number that is not 0. *)
Definition clz (w n : Z) : Z := w - 1 - Z.log2 n.

(** count_digits_fallback, 1281-1299. *)
Definition count_digits_fallback (n : Z) : res Z :=
  loop (S (Z.to_nat (Z.log2 n))) (fun '(n, count) =>
    Ok (if decide (n < 10) then inr count
        else if decide (n < 100) then inr (count + 1)
        else if decide (n < 1000) then inr (count + 2)
        else if decide (n < 10000) then inr (count + 3)
        else inl (n / 10000, count + 4))) (n, 1).

(** do_count_digits(uint64_t), 1309-1325. *)
Definition bsr2log10 : list Z :=
  [1; 1; 1; 2; 2; 2; 3; 3; 3; 4; 4; 4; 4;
   5; 5; 5; 6; 6; 6; 7; 7; 7; 7; 8; 8; 8;
   9; 9; 9; 10; 10; 10; 10; 11; 11; 11; 12; 12; 12;
   13; 13; 13; 13; 14; 14; 14; 15; 15; 15; 16; 16; 16;
   16; 17; 17; 17; 18; 18; 18; 19; 19; 19; 19; 20].
(** EFP_FMT_POWERS_OF_10, 1258-1260. *)
Definition powers_of_10 (factor : Z) : list Z :=
  (fun p => factor * p) <$> [10; 100; 1000; 10000; 100000; 1000000; 10000000; 100000000; 1000000000].
Definition zero_or_powers_of_10 : list Z :=
  [0; 0] ++ powers_of_10 1 ++ powers_of_10 1000000000 ++ [10000000000000000000].
Definition count_digits64 (n : Z) : res Z :=
  let* t := get bsr2log10 (Z.to_nat (Z.lxor (clz 64 (Z.lor n 1)) 63)) in
  let* p := get zero_or_powers_of_10 (Z.to_nat t) in
  Ok (t - (if decide (n < p) then 1 else 0)).

(** do_count_digits(uint32_t), 1363-1384; EFP_FMT_INC(T) has the number of chars of [T]. *)
Definition inc (len t : Z) : Z := (len * 2 ^ 32 - t) mod 2 ^ 64.
Definition inc_table : list Z :=
  [inc 1 0; inc 1 0; inc 1 0;
   inc 2 10; inc 2 10; inc 2 10;
   inc 3 100; inc 3 100; inc 3 100;
   inc 4 1000; inc 4 1000; inc 4 1000;
   inc 5 10000; inc 5 10000; inc 5 10000;
   inc 6 100000; inc 6 100000; inc 6 100000;
   inc 7 1000000; inc 7 1000000; inc 7 1000000;
   inc 8 10000000; inc 8 10000000; inc 8 10000000;
   inc 9 100000000; inc 9 100000000; inc 9 100000000;
   inc 10 1000000000; inc 10 1000000000; inc 10 1000000000;
   inc 10 1000000000; inc 10 1000000000].
Definition count_digits32 (n : Z) : res Z :=
  let* inc := get inc_table (Z.to_nat (Z.lxor (clz 32 (Z.lor n 1)) 31)) in
  Ok (Z.shiftr ((n + inc) mod 2 ^ 64) 32).

(** count_digits of an unsigned type of [w] bits, 32 or 64: 1328-1337, 1388-1395. *)
Definition count_digits (w n : Z) : res Z := if decide (w = 32) then count_digits32 n else count_digits64 n.

(** count_digits<BITS>, 1339-1356: with clz for 32 bits and with a loop for 64. *)
Definition count_digits_bits (w bits n : Z) : res Z :=
  if decide (w = 32) then Ok (Z.lxor (clz 32 (Z.lor n 1)) 31 / bits + 1)
  else loop (S (S (Z.to_nat (Z.log2 n)))) (fun '(m, num_digits) =>
    let m := Z.shiftr m bits in Ok (if decide (m <> 0) then inl (m, num_digits + 1) else inr (num_digits + 1))) (n, 0).

(** ** Writing to memory. A cell that was not written is [None]. *)
Definition mem : Type := list (option Z).
(** Write [cs] to the cells before [out]: out -= n, then copy. *)
Definition put_before (m : mem) (out : nat) (cs : list Z) : res (mem * nat) :=
  if decide (length cs <= out)%nat then
    let* m := for_up (length cs) 0 (fun i m => let* c := get cs i in put m (out - length cs + i) (Some c)) m in
    Ok (m, (out - length cs)%nat)
  else UB OutOfBounds.
(** The chars in memory. *)
Fixpoint read_all (m : mem) : res (list Z) :=
  match m with
  | [] => Ok []
  | None :: _ => UB Uninit
  | Some c :: m => let* cs := read_all m in Ok (c :: cs)
  end.

(** digits2, 1263-1270. *)
Definition digits2_table : list Z := Eval compute in
  lit ("0001020304050607080910111213141516171819" ++
       "2021222324252627282930313233343536373839" ++
       "4041424344454647484950515253545556575859" ++
       "6061626364656667686970717273747576777879" ++
       "8081828384858687888990919293949596979899").
Definition digits2 (value : Z) : res (list Z) :=
  let* a := get digits2_table (Z.to_nat (value * 2)) in
  let* b := get digits2_table (Z.to_nat (value * 2) + 1) in Ok [a; b].

(** format_decimal to a pointer, 1468-1490: the memory, begin and end. *)
Definition format_decimal (m : mem) (value : Z) (size : nat) : res (mem * nat * nat) :=
  let* (m, out, value) :=
    loop (S (Z.to_nat (Z.log2 value))) (fun '(m, out, value) =>
      if decide (100 <= value) then
        let* two := digits2 (value mod 100) in
        let* (m, out) := put_before m out two in Ok (inl (m, out, value / 100))
      else Ok (inr (m, out, value))) (m, size, value) in
  if decide (value < 10) then
    let* (m, out) := put_before m out [48 + value] in Ok (m, out, size)
  else
    let* two := digits2 value in
    let* (m, out) := put_before m out two in Ok (m, out, size).

(** digits10 of an unsigned type of [w] bits. *)
Definition digits10 (w : Z) : nat := if decide (w = 32) then 9 else 19.
(** format_decimal to another iterator, 1492-1503: the chars it appends. *)
Definition format_decimal_it (w value : Z) (size : nat) : res (list Z) :=
  let* (m, _, e) := format_decimal (replicate (digits10 w + 1) (Some 0)) value size in
  read_all (take e m).

(** format_uint to a pointer, 1505-1517. *)
Definition hex_digits (upper : bool) : list Z := lit (if upper then "0123456789ABCDEF" else "0123456789abcdef").
Definition format_uint (bits : Z) (m : mem) (value : Z) (num_digits : nat) (upper : bool) : res (mem * nat) :=
  let* m := loop (S (S (Z.to_nat (Z.log2 value)))) (fun '(m, out, value) =>
    let digit := Z.land value (Z.shiftl 1 bits - 1) in
    let* c := if decide (bits < 4) then Ok (48 + digit) else get (hex_digits upper) (Z.to_nat digit) in
    let* (m, out) := put_before m out [c] in
    let value := Z.shiftr value bits in
    Ok (if decide (value <> 0) then inl (m, out, value) else inr m)) (m, num_digits, value) in
  Ok (m, num_digits).
(** format_uint to another iterator, 1519-1530, for an unsigned type of [w] bits: to the output if it
    has room for the digits, else by way of a buffer. *)
Definition format_uint_it (room : bool) (w bits value : Z) (num_digits : nat) (upper : bool) : res (list Z) :=
  if room then
    let* (m, _) := format_uint bits (replicate num_digits None) value num_digits upper in read_all m
  else
    let* (m, _) := format_uint bits (replicate (Z.to_nat (w / bits) + 1) (Some 0)) value num_digits upper in
    read_all (take num_digits m).

(** write(OutputIt, T) for integers, 2572-2593: the chars it appends. The unsigned type has 32 bits for
    a [T] of at most 32 bits, else 64; 128 is not modelled. [room]: the output has room for the chars. *)
Definition uwidth (t : ity) : Z := if decide (bits t <= 32) then 32 else 64.
Definition is_negative (t : ity) (value : Z) : bool := signed t && (value <? 0).
Definition write_default (room : bool) (t : ity) (value : Z) : res (list Z) :=
  let w := uwidth t in
  let abs_value := value mod 2 ^ w in
  let negative := is_negative t value in
  let abs_value := if negative then (Z.lnot abs_value mod 2 ^ w + 1) mod 2 ^ w else abs_value in
  let* num_digits := count_digits w abs_value in
  let sign : mem := if negative then [Some 45] else [] in
  let n := Z.to_nat num_digits in
  if room then
    let* (m, _, _) := format_decimal (replicate n None) abs_value n in read_all (sign ++ m)
  else
    let* cs := format_decimal_it w abs_value n in
    let* s := read_all sign in Ok (s ++ cs).
