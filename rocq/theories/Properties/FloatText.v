(** The text of floating-point numbers that are formatted without specs. *)
From Coq Require Import Strings.String QArith.
From Verif Require Import Base.Cpp Model.FmtInt Model.Format Model.Dragonbox Model.FloatLayout Spec.FormatSpec Spec.FloatText Spec.FloatSpec
  Proofs.DragonboxProofs Proofs.FloatTextProofs.
Local Open Scope Z_scope.

(** A double is given by its 64 bits [br]: the top bit is its sign and [br mod 2^63] its magnitude. [E] is the locale and
    the state of the output, which do not matter. *)
Definition minus (neg : bool) : list Z := if neg then [45] else [].

(** C126. The text of a number is a minus sign if it is negative, and then the digits of the shortest decimal that is
    read as it: with the point where it belongs, or for numbers below 10^-4 or from 10^16 on with one digit before the
    point and an exponent. *)
Theorem C126_double E out br : 0 <= br < 2 ^ 64 -> finite_bits binary64 (br mod 2 ^ 63) ->
  exists s j ds text, shortest (of_bits binary64 (br mod 2 ^ 63)) s j /\
    numeral 10 false s (digit_text ds) /\ general_text ds j text /\
    write_double E out br = Ok (out ++ minus (2 ^ 63 <=? br) ++ text).
Proof.
  intros Hbr Hfin. destruct (double_finite E out br Hbr Hfin) as (_ & s & j & ds & text & H1 & _ & H2 & H3 & H4 & _).
  by exists s, j, ds, text.
Qed.
Theorem C126_float E out br : 0 <= br < 2 ^ 32 -> finite_bits binary32 (br mod 2 ^ 31) ->
  exists s j ds text, shortest (of_bits binary32 (br mod 2 ^ 31)) s j /\
    numeral 10 false s (digit_text ds) /\ general_text ds j text /\
    write_float E out br = Ok (out ++ minus (2 ^ 31 <=? br) ++ text).
Proof.
  intros Hbr Hfin. destruct (float_finite E out br Hbr Hfin) as (_ & s & j & ds & text & H1 & _ & H2 & H3 & H4 & _).
  by exists s, j, ds, text.
Qed.
(** Zero is 0, infinity inf, and what is no number nan, after the sign. *)
Theorem C126_double_special E out br : 0 <= br < 2 ^ 64 -> let m := br mod 2 ^ 63 in
  (m = 0 -> write_double E out br = Ok (out ++ minus (2 ^ 63 <=? br) ++ lit "0")) /\
  (m = inf64 -> write_double E out br = Ok (out ++ minus (2 ^ 63 <=? br) ++ lit "inf")) /\
  (m > inf64 -> write_double E out br = Ok (out ++ minus (2 ^ 63 <=? br) ++ lit "nan")).
Proof.
  intros Hbr m. split_and!; intros Hm.
  - by apply double_zero.
  - rewrite double_nonfinite by (done || (fold m; lia)). fold m. by rewrite decide_True.
  - rewrite double_nonfinite by (done || (fold m; lia)). fold m. by rewrite decide_False by lia.
Qed.
Theorem C126_float_special E out br : 0 <= br < 2 ^ 32 -> let m := br mod 2 ^ 31 in
  (m = 0 -> write_float E out br = Ok (out ++ minus (2 ^ 31 <=? br) ++ lit "0")) /\
  (m = inf32 -> write_float E out br = Ok (out ++ minus (2 ^ 31 <=? br) ++ lit "inf")) /\
  (m > inf32 -> write_float E out br = Ok (out ++ minus (2 ^ 31 <=? br) ++ lit "nan")).
Proof.
  intros Hbr m. split_and!; intros Hm.
  - by apply float_zero.
  - rewrite float_nonfinite by (done || (fold m; lia)). fold m. by rewrite decide_True.
  - rewrite float_nonfinite by (done || (fold m; lia)). fold m. by rewrite decide_False by lia.
Qed.
Print Assumptions C126_double.
Print Assumptions C126_float.
Print Assumptions C126_double_special.
Print Assumptions C126_float_special.
(** Every double is one of these. *)
Example C126_all br : 0 <= br < 2 ^ 64 -> let m := br mod 2 ^ 63 in
  finite_bits binary64 m \/ m = 0 \/ m = inf64 \/ m > inf64.
Proof.
  intros Hbr m. pose proof (Z.mod_pos_bound br (2 ^ 63) ltac:(lia)) as Hm. fold m in Hm. unfold finite_bits.
  change ((emax binary64 - emin binary64 + 2) * 2 ^ (prec binary64 - 1)) with inf64. lia.
Qed.
Definition plain : env := Env (fun _ _ => true) [] [] 46.
Example C126_tenth : finite_bits binary64 (0xbfb999999999999a mod 2 ^ 63) /\
  write_double plain [] 0xbfb999999999999a = Ok (lit "-0.1").
Proof. vm_compute. done. Qed.
Example C126_texts :
  write_double plain [] 0x3ff0000000000000 = Ok (lit "1") /\
  write_double plain [] 0x405edd2f1a9fbe77 = Ok (lit "123.456") /\
  write_double plain [] 0x4341c37937e08000 = Ok (lit "1e+16") /\
  write_double plain [] 0x430c6bf526340000 = Ok (lit "1000000000000000") /\
  write_double plain [] 1 = Ok (lit "5e-324") /\
  write_double plain [] 0x7fefffffffffffff = Ok (lit "1.7976931348623157e+308") /\
  write_double plain [] 0x3f1a36e2eb1c432d = Ok (lit "0.0001") /\
  write_double plain [] 0xfff0000000000000 = Ok (lit "-inf") /\
  write_double plain [] 0x8000000000000000 = Ok (lit "-0").
Proof. vm_compute. done. Qed.

(** C127. What is printed can be read: the text is a number in digits, with a point and an exponent perhaps, and the
    decimal that it stands for is read as the number that was printed. *)
Theorem C127_double E out br : 0 <= br < 2 ^ 64 -> finite_bits binary64 (br mod 2 ^ 63) ->
  exists text n e, write_double E out br = Ok (out ++ minus (2 ^ 63 <=? br) ++ text) /\
    number_text text n e /\ reads_as (decimal n e) (of_bits binary64 (br mod 2 ^ 63)).
Proof.
  intros Hbr Hfin. destruct (double_finite E out br Hbr Hfin) as (_ & s & j & ds & text & (_ & Hr & _) & _ & _ & _ & H4 & n & e & H5 & H6).
  exists text, n, e. split_and!; [done..|]. by apply (reads_proper _ _ (decimal s j)).
Qed.
Theorem C127_float E out br : 0 <= br < 2 ^ 32 -> finite_bits binary32 (br mod 2 ^ 31) ->
  exists text n e, write_float E out br = Ok (out ++ minus (2 ^ 31 <=? br) ++ text) /\
    number_text text n e /\ reads_as (decimal n e) (of_bits binary32 (br mod 2 ^ 31)).
Proof.
  intros Hbr Hfin. destruct (float_finite E out br Hbr Hfin) as (_ & s & j & ds & text & (_ & Hr & _) & _ & _ & _ & H4 & n & e & H5 & H6).
  exists text, n, e. split_and!; [done..|]. by apply (reads_proper _ _ (decimal s j)).
Qed.
(** A text stands for one decimal, and the decimal is read as one number. *)
Theorem C127_one_decimal text n e n' e' : number_text text n e -> number_text text n' e' -> n = n' /\ e = e'.
Proof. apply number_text_unique. Qed.
Theorem C127_one_number a b d : finite_bits binary64 a -> finite_bits binary64 b ->
  reads_as d (of_bits binary64 a) -> reads_as d (of_bits binary64 b) -> a = b.
Proof.
  intros Ha Hb Hra Hrb. apply (of_bits_inj binary64); try done.
  apply (Proofs.FloatSpecProofs.reads_unique binary64 ltac:(done) _ _ d); try done.
  - by apply to_decimal_double_shortest.
  - by apply to_decimal_double_shortest.
  - by apply of_bits_pos.
  - by apply of_bits_pos.
Qed.
Theorem C127_one_number_float a b d : finite_bits binary32 a -> finite_bits binary32 b ->
  reads_as d (of_bits binary32 a) -> reads_as d (of_bits binary32 b) -> a = b.
Proof.
  intros Ha Hb Hra Hrb. apply (of_bits_inj binary32); try done.
  apply (Proofs.FloatSpecProofs.reads_unique binary32 ltac:(done) _ _ d); try done.
  - by apply to_decimal_float_shortest.
  - by apply to_decimal_float_shortest.
  - by apply of_bits_pos.
  - by apply of_bits_pos.
Qed.
Print Assumptions C127_double.
Print Assumptions C127_float.
Print Assumptions C127_one_decimal.
Print Assumptions C127_one_number.
Print Assumptions C127_one_number_float.
Example C127_some : number_text (lit "1.25e-03") 125 (-5).
Proof.
  apply (Scaled_down (lit "1.25") 125 (-2) 101 [0; 3]); [|by left|done|repeat constructor; lia].
  apply (Pointed [1] [2; 5]); [done|repeat constructor; lia..].
Qed.

(** C128. At most 17 digits are printed for a double, and at most 9 for a float. *)
Theorem C128_double E out br : 0 <= br < 2 ^ 64 -> finite_bits binary64 (br mod 2 ^ 63) ->
  exists s j ds text, general_text ds j text /\ write_double E out br = Ok (out ++ minus (2 ^ 63 <=? br) ++ text) /\
    numeral 10 false s (digit_text ds) /\ 0 < s < 10 ^ 17.
Proof.
  intros Hbr Hfin. destruct (double_finite E out br Hbr Hfin) as (_ & s & j & ds & text & _ & H0 & H2 & H3 & H4 & _).
  by exists s, j, ds, text.
Qed.
Theorem C128_float E out br : 0 <= br < 2 ^ 32 -> finite_bits binary32 (br mod 2 ^ 31) ->
  exists s j ds text, general_text ds j text /\ write_float E out br = Ok (out ++ minus (2 ^ 31 <=? br) ++ text) /\
    numeral 10 false s (digit_text ds) /\ 0 < s < 10 ^ 9.
Proof.
  intros Hbr Hfin. destruct (float_finite E out br Hbr Hfin) as (_ & s & j & ds & text & _ & H0 & H2 & H3 & H4 & _).
  by exists s, j, ds, text.
Qed.
Print Assumptions C128_double.
Print Assumptions C128_float.
Example C128_seventeen : finite_bits binary64 0x3fd3333333333334 /\
  write_double plain [] 0x3fd3333333333334 = Ok (lit "0.30000000000000004").
Proof. vm_compute. done. Qed.

(** C129. Two numbers, infinities and signed zeros included, are printed alike only if they are the same. *)
Theorem C129_double E a b t : 0 <= a < 2 ^ 64 -> 0 <= b < 2 ^ 64 -> a mod 2 ^ 63 <= inf64 -> b mod 2 ^ 63 <= inf64 ->
  write_double E [] a = Ok t -> write_double E [] b = Ok t -> a = b.
Proof. apply double_apart. Qed.
Theorem C129_float E a b t : 0 <= a < 2 ^ 32 -> 0 <= b < 2 ^ 32 -> a mod 2 ^ 31 <= inf32 -> b mod 2 ^ 31 <= inf32 ->
  write_float E [] a = Ok t -> write_float E [] b = Ok t -> a = b.
Proof. apply float_apart. Qed.
Print Assumptions C129_double.
Print Assumptions C129_float.
Example C129_neighbours : write_float plain [] 0x3dcccccd = Ok (lit "0.1") /\
  write_float plain [] 0x3dccccce = Ok (lit "0.10000001").
Proof. vm_compute. done. Qed.
