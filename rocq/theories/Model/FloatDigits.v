(** Model of how the digits of a floating-point number are made for format specs: format_float, format_hexfloat and
    write_float of /repo/include/efp/fmt/format.h, for float and double. Line numbers are those of format.h. The
    buffers are memory_buffers, which grow as they have to: a list of chars. *)
From Verif Require Import Base.Cpp Model.Numeric Model.FmtInt Model.FormatSpecs Model.Dragonbox Model.FloatLayout Model.Bigint.
Local Open Scope Z_scope.

Global Instance float_pres_eq_dec : EqDecision float_pres. Proof. solve_decision. Defined.

(** The number that a float or double with the bits [br] is: basic_fp::assign, 1840-1863. f, e, and whether the
    predecessor is closer than the successor. *)
Definition fp_assign (I : float_info) (br : Z) : Z * Z * bool :=
  let implicit_bit := Z.shiftl 1 (num_significand_bits I) in
  let f := Z.land br (implicit_bit - 1) in
  let biased_e := Z.shiftr (Z.land br (exponent_mask I)) (num_significand_bits I) in
  let closer := (f =? 0) && (1 <? biased_e) in
  let '(f, biased_e) := if decide (biased_e = 0) then (f, 1) else (f + implicit_bit, biased_e) in
  (f, biased_e - exponent_bias I - num_significand_bits I, closer).

(** static_cast<double>(float) of a float that is not negative, as bits: the double that is the same number. *)
Definition widen (br : Z) : Z :=
  let fraction := Z.land br (2 ^ 23 - 1) in
  let biased := Z.shiftr br 23 in
  if decide (biased = 0) then
    if decide (fraction = 0) then 0
    else let l := Z.log2 fraction in (l + 874) * 2 ^ 52 + (fraction - 2 ^ l) * 2 ^ (52 - l)
  else if decide (biased = 255) then 2047 * 2 ^ 52 + fraction * 2 ^ 29
  else (biased + 896) * 2 ^ 52 + fraction * 2 ^ 29.

(** adjust_precision, 3052-3058; throws format_error. *)
Definition adjust_precision (precision exp10 : Z) : res Z :=
  if decide (0 < exp10 /\ max_int - exp10 < precision) then Throw else Ok (precision + exp10).

(** fractional_part_rounding_thresholds, 3575-3584. *)
Definition fractional_part_rounding_thresholds (index : Z) : res Z :=
  get [0x9999999a; 0x828f5c29; 0x80418938; 0x80068db9; 0x8000a7c6; 0x800010c7; 0x800001ae; 0x8000002b] (Z.to_nat index).

(** print_subsegment, 3708-3745: the chars, prod and digits. *)
Definition print_subsegment (subsegment number_of_digits_to_print : Z) : res (list Z * Z * Z) :=
  let* (buf, prod, digits) :=
    if decide (Z.land number_of_digits_to_print 1 <> 0) then
      let prod := Z.shiftr (wrap 64 (subsegment * 720575941)) 24 + 1 in
      let digits := wrap 32 (Z.shiftr prod 32) in
      Ok ([48 + digits], prod, digits)
    else
      let prod := Z.shiftr (wrap 64 (subsegment * 450359963)) 20 + 1 in
      let digits := wrap 32 (Z.shiftr prod 32) in
      let* two := digits2 digits in Ok (two, prod, digits) in
  loop 6 (fun '(buf, prod, digits) =>
    if decide (Z.of_nat (length buf) < number_of_digits_to_print) then
      let prod := wrap 64 (wrap 32 prod * 100) in
      let digits := wrap 32 (Z.shiftr prod 32) in
      let* two := digits2 digits in Ok (inl (buf ++ two, prod, digits))
    else Ok (inr (buf, prod, digits))) (buf, prod, digits).

(** The rounding inside a subsegment, 3765-3773 and 3808-3817. *)
Definition round_inside (prod digits number_of_digits_to_print : Z) (more has_more_segments : bool) : res bool :=
  let fractional_part := wrap 32 prod in
  let* threshold := fractional_part_rounding_thresholds (8 - number_of_digits_to_print) in
  Ok ((threshold <=? fractional_part)
      || negb (Z.land (Z.shiftr fractional_part 31)
                 (Z.lor (Z.lor (Z.land digits 1) (Z.b2z more)) (Z.b2z has_more_segments)) =? 0)).

(** The digits that the first segment has, 3683-3862, for 0 < precision: the chars and exp. [exp] is the exponent that
    goes with [precision] digits. *)
Definition segment_digits (first_segment : Z) (has_more_segments fixed : bool) (precision exp : Z) : res (list Z * Z) :=
  let first_subsegment := wrap 32 (Z.shiftr (umul128_upper64 first_segment 7922816251426433760) 32) in
  let second_third_subsegments := wrap 64 (first_segment - wrap 64 (first_subsegment * 10000000000)) in
  let number_of_digits_to_print := if decide (precision > 9) then 9 else precision in
  let* (buf, prod, digits) := print_subsegment first_subsegment number_of_digits_to_print in
  let* (buf, should_round_up) :=
    if decide (precision <= 9) then
      if decide (precision < 9) then
        let* r := round_inside prod digits number_of_digits_to_print (negb (second_third_subsegments =? 0)) has_more_segments in
        Ok (buf, r)
      else
        Ok (buf, (5000000000 <? second_third_subsegments)
                 || ((second_third_subsegments =? 5000000000) && (negb (Z.land digits 1 =? 0) || has_more_segments)))
    else
      let second_subsegment := wrap 32 (umul128_upper64 second_third_subsegments 1844674407370955162) in
      let third_subsegment := wrap 32 (wrap 32 second_third_subsegments - wrap 32 (second_subsegment * 10)) in
      let number_of_digits_to_print := precision - 9 in
      let* (buf2, prod, digits) := print_subsegment second_subsegment number_of_digits_to_print in
      let buf := buf ++ buf2 in
      if decide (precision < 18) then
        let* r := round_inside prod digits number_of_digits_to_print (negb (third_subsegment =? 0)) has_more_segments in
        Ok (buf, r)
      else
        Ok (buf, (5 <? third_subsegment)
                 || ((third_subsegment =? 5) && (negb (Z.land digits 1 =? 0) || has_more_segments))) in
  if should_round_up then
    let* last := get buf (Z.to_nat (precision - 1)) in
    let* buf := put buf (Z.to_nat (precision - 1)) (last + 1) in
    let* buf := carry_up buf in
    let* b0 := get buf 0 in
    if decide (57 < b0) then
      let* buf := put buf 0 49 in
      if fixed then Ok (buf ++ [48], exp) else Ok (buf, exp + 1)
    else Ok (buf, exp)
  else Ok (buf, exp).

(** The first digits of a positive double with the bits [br], 3636-3676: the first segment, of 19 digits, whether there
    is more, the number of its digits and exp. *)
Definition get_first_segment (br : Z) : res (Z * bool * Z * Z) :=
  let I := float_info_double in
  let significand_mask := Z.shiftl 1 (num_significand_bits I) - 1 in
  let significand := Z.land br significand_mask in
  let exponent := Z.shiftr (Z.land br (exponent_mask I)) (num_significand_bits I) in
  let* (significand, exponent) :=
    if decide (exponent <> 0) then
      Ok (wrap 64 (Z.shiftl (Z.lor significand (Z.shiftl 1 (num_significand_bits I))) 1),
          exponent - (exponent_bias I + num_significand_bits I))
    else
      asserted (negb (significand =? 0)) (
        let shift := clz 64 significand in
        asserted (64 - num_significand_bits I <=? shift) (
          let shift := shift - (64 - num_significand_bits I - 2) in
          let* significand := shl 64 significand shift in
          Ok (significand, (min_exponent I - num_significand_bits I) - shift))) in
  let* lg := floor_log10_pow2 exponent in
  let k := kappa I - lg in
  let exp := - k in
  let* l := floor_log2_pow10 k in
  let beta := exponent + l in
  let* cache := double_cached_power k in
  let* s := shl 64 significand beta in
  let r := umul192_upper128 s cache in
  let first_segment := fst r in
  let has_more_segments := negb (snd r =? 0) in
  Ok (if decide (1000000000000000000 <= first_segment) then (first_segment, has_more_segments, 19, exp)
      else (wrap 64 (first_segment * 10), has_more_segments, 18, exp)).

(** Remove trailing zeros, 3874-3882. *)
Definition remove_zeros (buf : list Z) (exp : Z) : res (list Z * Z) :=
  loop (S (length buf)) (fun '(num, exp) =>
    if decide (0 < num)%nat then
      let* c := get buf (num - 1) in
      Ok (if decide (c = 48) then inl ((num - 1)%nat, exp + 1) else inr (take num buf, exp))
    else Ok (inr (take num buf, exp))) (length buf, exp).

(** format_float, 3586-3885, of a double that is not negative: the chars and exp. [single] are the bits of
    static_cast<float>(value), which are used if the specs say that it is a float. The write of an unsigned number,
    3627 and 3631, is write_digits. *)
Definition format_float (br single : Z) (precision : Z) (fs : float_specs) : res (list Z * Z) :=
  let fixed := bool_decide (fs_format fs = Fixed) in
  if decide (br = 0) then
    if decide (precision <= 0 \/ fixed = false) then Ok ([48], 0)
    else Ok (replicate (Z.to_nat precision) 48, - precision)
  else
    let* (buf, exp) :=
      if decide (precision < 0) then
        let* (n, e) := if fs_binary32 fs then to_decimal_float single else to_decimal_double br in
        let w := if fs_binary32 fs then 32 else 64 in
        let* size := count_digits w n in
        let* ds := format_decimal_it w n (Z.to_nat size) in
        Ok (ds, e)
      else
        let* (first_segment, has_more_segments, digits, exp) := get_first_segment br in
        let* precision := if fixed then adjust_precision precision (exp + digits) else Ok precision in
        if decide (precision < digits) then
          if decide (precision <= 0) then
            Ok ((if decide (precision < 0) then []
                 else if decide (5000000000000000000 < Z.lor first_segment (Z.b2z has_more_segments)) then [49] else [48]),
                exp + digits)
          else segment_digits first_segment has_more_segments fixed precision (exp + (digits - precision))
        else
          let exp := exp + (digits - 1) in
          let '(f, e, closer) :=
            if fs_binary32 fs then fp_assign float_info_float single else fp_assign float_info_double br in
          format_dragon f e closer fixed (Z.min precision 767) exp in
    if negb fixed && negb (fs_showpoint fs) then remove_zeros buf exp else Ok (buf, exp).

(** format_hexfloat, 3485-3567, of a double that is not negative: the chars. *)
Definition format_hexfloat (br precision : Z) (fs : float_specs) : res (list Z) :=
  let I := float_info_double in
  let '(f, e, _) := fp_assign I br in
  let e := e + num_significand_bits I in
  let num_fraction_bits := num_significand_bits I + 1 in
  let num_xdigits := (num_fraction_bits + 3) / 4 in
  let leading_shift := (num_xdigits - 1) * 4 in
  let leading_xdigit := wrap 32 (Z.shiftr (Z.land f (Z.shiftl 15 leading_shift)) leading_shift) in
  let e := if decide (leading_xdigit > 1) then e - (32 - clz 32 leading_xdigit - 1) else e in
  let print_xdigits := num_xdigits - 1 in
  let* (f, print_xdigits) :=
    if decide (0 <= precision /\ precision < print_xdigits) then
      let shift := (print_xdigits - precision - 1) * 4 in
      let* mask := shl 64 15 shift in
      let v := wrap 32 (Z.shiftr (Z.land f mask) shift) in
      let* f :=
        if decide (8 <= v) then
          let* inc := shl 64 1 (shift + 4) in
          Ok (Z.land (wrap 64 (f + inc)) (Z.lxor (wrap 64 (inc - 1)) (Z.ones 64)))
        else Ok f in
      Ok (f, precision)
    else Ok (f, print_xdigits) in
  let* (xdigits, _) := format_uint 4 (replicate 16 (Some 48)) f (Z.to_nat num_xdigits) (fs_upper fs) in
  let* xdigits := read_all xdigits in
  let* print_xdigits := loop (S (Z.to_nat print_xdigits)) (fun p =>
    if decide (0 < p) then
      let* c := get xdigits (Z.to_nat p) in Ok (if decide (c = 48) then inl (p - 1) else inr p)
    else Ok (inr p)) print_xdigits in
  let* x0 := get xdigits 0 in
  let '(sg, abs_e) := if decide (e < 0) then (45, - e) else (43, e) in
  let* size := count_digits 32 abs_e in
  let* ex := format_decimal_it 32 abs_e (Z.to_nat size) in
  Ok ([48; if fs_upper fs then 88 else 120; x0]
      ++ (if fs_showpoint fs || (0 <? print_xdigits) || (print_xdigits <? precision) then [46] else [])
      ++ take (Z.to_nat print_xdigits) (drop 1 xdigits)
      ++ replicate (Z.to_nat (precision - print_xdigits)) 48
      ++ [if fs_upper fs then 80 else 112; sg] ++ ex).

(** write_float, 3895-3942, of a float or double with the bits [br], and write, 3944-3953, of a value that is not
    localized. [p] is the presentation, specs.type. *)
Definition write_float_specs (E : env) (locale_point : Z) (I : float_info) (out : list Z) (br : Z) (p : float_pres) (sp : specs)
    : res (list Z) :=
  let fs := parse_float_type_spec p sp in
  let fs := set_fs_sign fs (if sign_bit I br then SMinus else match sgn sp with SMinus => SNone | s => s end) in
  let br := magnitude I br in
  let mask := exponent_mask I in
  if decide (Z.land br mask = mask) then
    write_nonfinite out (negb (Z.land br (Z.ones (num_significand_bits I)) =? 0)) sp fs
  else
    let '(out, fs, sp) :=
      if decide (al sp = ANumeric /\ fs_sign fs <> SNone) then
        (out ++ sign_chars (fs_sign fs), set_fs_sign fs SNone,
         if decide (width sp <> 0) then set_width sp (width sp - 1) else sp)
      else (out, fs, sp) in
    let is_float := carrier_bits I =? 32 in
    let value := if is_float then widen br else br in
    if decide (fs_format fs = Hex) then
      let* cs := format_hexfloat value (precision sp) fs in
      let cs := sign_chars (fs_sign fs) ++ cs in
      write_padded true out sp (Z.of_nat (length cs)) (Z.of_nat (length cs)) (fun it => Ok (it ++ cs))
    else
      let precision := if decide (0 <= precision sp \/ p = FNone) then precision sp else 6 in
      let* precision :=
        if decide (fs_format fs = Exp) then
          if decide (precision = max_int) then Throw else Ok (precision + 1)
        else if decide (fs_format fs <> Fixed /\ precision = 0) then Ok 1
        else Ok precision in
      let fs := if is_float then set_fs_binary32 fs true else fs in
      let* (buffer, exp) := format_float value br precision fs in
      let fs := set_fs_precision fs precision in
      do_write_float E locale_point out (SChars buffer) exp sp fs.
