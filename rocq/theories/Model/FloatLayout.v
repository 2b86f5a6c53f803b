(** Model of how a decimal is laid out as text: /repo/include/efp/fmt/format.h, for char output to an
    iterator that is no pointer (an appender). The digits and the exponent come from Dragonbox.v and
    FloatDigits.v. Line numbers are those of format.h. *)
From Verif Require Import Base.Cpp Model.Numeric Model.FmtInt Model.FormatSpecs Model.Dragonbox.
Local Open Scope Z_scope.

(** presentation_type for floats, core.h:2292-2329. *)
Inductive float_pres : Type :=
| FNone | FGeneral (upper : bool) | FExp (upper : bool) | FFixed (upper : bool) | FHex (upper : bool).
(** float_format and float_specs, 2639-2655. *)
Inductive float_format : Type := General | Exp | Fixed | Hex.
Global Instance float_format_eq_dec : EqDecision float_format. Proof. solve_decision. Defined.
Record float_specs : Type := FSpecs {
  fs_precision : Z; fs_format : float_format; fs_sign : sign; fs_upper : bool; fs_locale : bool;
  fs_binary32 : bool; fs_showpoint : bool }.
Definition set_fs_precision s x := FSpecs x (fs_format s) (fs_sign s) (fs_upper s) (fs_locale s) (fs_binary32 s) (fs_showpoint s).
Definition set_fs_sign s x := FSpecs (fs_precision s) (fs_format s) x (fs_upper s) (fs_locale s) (fs_binary32 s) (fs_showpoint s).
Definition set_fs_binary32 s x := FSpecs (fs_precision s) (fs_format s) (fs_sign s) (fs_upper s) (fs_locale s) x (fs_showpoint s).
(** float_specs(): all zero. *)
Definition float_specs_zero : float_specs := FSpecs 0 General SNone false false false false.
(** parse_float_type_spec, 2657-2697; the error case is a presentation that is not for floats. *)
Definition parse_float_type_spec (p : float_pres) (sp : specs) : float_specs :=
  let result f u point := FSpecs 0 f SNone u (localized sp) false (alt sp || point) in
  let point := negb (precision sp =? 0) in
  match p with
  | FNone => result General false false
  | FGeneral u => result General u false
  | FExp u => result Exp u point
  | FFixed u => result Fixed u point
  | FHex u => result Hex u false
  end.

(** sign, 1273-1279: the chars it writes. *)
Definition sign_chars (s : sign) : list Z :=
  match s with SNone => [] | SMinus => [45] | SPlus => [43] | SSpace => [32] end.
Definition sign_size (s : sign) : Z := match s with SNone => 0 | _ => 1 end.

(** write_nonfinite, 2699-2718. *)
Definition write_nonfinite (out : list Z) (isnan : bool) (sp : specs) (fs : float_specs) : res (list Z) :=
  let str := if isnan then (if fs_upper fs then [78; 65; 78] else [110; 97; 110])
             else (if fs_upper fs then [73; 78; 70] else [105; 110; 102]) in
  let size := 3 + sign_size (fs_sign fs) in
  let sp := if decide (fill sp = [48]) then set_fill sp [32] else sp in
  write_padded false out sp size size (fun it => Ok (it ++ sign_chars (fs_sign fs) ++ str)).

(** The significand: the chars of big_decimal_fp, 2720-2725, or the unsigned number of [w] bits of
    dragonbox::decimal_fp. *)
Inductive significand : Type := SChars (cs : list Z) | SNumber (w n : Z).
(** get_significand_size, 2727-2734. *)
Definition get_significand_size (s : significand) : res Z :=
  match s with SChars cs => Ok (Z.of_nat (length cs)) | SNumber w n => count_digits w n end.
(** to_unsigned, core.h:386-391. *)
Definition to_unsigned (n : Z) : res Z := asserted (0 <=? n) (Ok n).

(** write_significand, 2736-2745: the chars it writes, as for those below. *)
Definition write_digits (s : significand) (size : Z) : res (list Z) :=
  match s with
  | SChars cs => Ok (take (Z.to_nat size) cs)
  | SNumber w n => format_decimal_it w n (Z.to_nat size)
  end.
(** digit_grouping(loc, localized), 2246-2254, and has_separator, 2259-2261. *)
Definition float_grouping (E : env) (locale : bool) : env :=
  if locale then E else Env (room E) [] [] (point E).
Definition has_separator (G : env) : bool := match sep G with [] => false | _ => true end.
(** write_significand with zeros after it, 2747-2762. *)
Definition write_with_zeros (G : env) (out : list Z) (s : significand) (size exponent : Z) : res (list Z) :=
  let* ds := write_digits s size in
  let ds := ds ++ replicate (Z.to_nat exponent) 48 in
  if has_separator G then group_apply G out ds else Ok (out ++ ds).

(** write_significand with a point, of a number, to a pointer, 2764-2788: the memory and the end. The number is
    written from its end. *)
Definition write_point_mem (m : mem) (n size integral_size point : Z) : res (mem * nat) :=
  if decide (point = 0) then
    let* (m, _, e) := format_decimal m n (Z.to_nat size) in Ok (m, e)
  else
    let e := Z.to_nat (size + 1) in
    let floating_size := size - integral_size in
    let* (m, out, n) := for_up (Z.to_nat (floating_size / 2)) 0 (fun _ '(m, out, n) =>
      let* two := digits2 (n mod 100) in
      let* (m, out) := put_before m out two in Ok (m, out, n / 100)) (m, e, n) in
    let* (m, out, n) :=
      if decide (floating_size mod 2 <> 0) then
        let* (m, out) := put_before m out [48 + n mod 10] in Ok (m, out, n / 10)
      else Ok (m, out, n) in
    let* (m, out) := put_before m out [point] in
    if decide (Z.of_nat out < integral_size) then UB OutOfBounds
    else
      let start := (out - Z.to_nat integral_size)%nat in
      let* (m', _, _) := format_decimal (drop start m) n (Z.to_nat integral_size) in
      Ok (take start m ++ m', e).
(** The same to an iterator, 2790-2809, and of chars, 2811-2828. A point that is 0 is none. *)
Definition write_point (s : significand) (size integral_size point : Z) : res (list Z) :=
  match s with
  | SNumber w n =>
      let* (m, e) := write_point_mem (replicate (digits10 w + 2) None) n size integral_size point in
      read_all (take e m)
  | SChars cs =>
      let integral := take (Z.to_nat integral_size) cs in
      if decide (point = 0) then Ok integral
      else Ok (integral ++ point :: take (Z.to_nat (size - integral_size)) (drop (Z.to_nat integral_size) cs))
  end.
(** write_significand with a point and grouping, 2830-2852. *)
Definition write_point_grouped (G : env) (out : list Z) (s : significand) (size integral_size point : Z) : res (list Z) :=
  let* cs := write_point s size integral_size point in
  if has_separator G then
    let* integral_size := to_unsigned integral_size in
    let* out := group_apply G out (take (Z.to_nat integral_size) cs) in
    Ok (out ++ drop (Z.to_nat integral_size) cs)
  else Ok (out ++ cs).

(** write_exponent, 1797-1818: the chars it writes. *)
Definition write_exponent (exp : Z) : res (list Z) :=
  asserted ((-10000 <? exp) && (exp <? 10000)) (
    let '(sg, exp) := if decide (exp < 0) then ([45], - exp) else ([43], exp) in
    let* (high, exp) :=
      if decide (100 <= exp) then
        let* top := digits2 (exp / 100) in
        let* t1 := get top 1 in
        if decide (1000 <= exp) then let* t0 := get top 0 in Ok ([t0; t1], exp mod 100)
        else Ok ([t1], exp mod 100)
      else Ok ([], exp) in
    let* low := digits2 exp in
    Ok (sg ++ high ++ low)).

(** use_exp_format, 2876-2887. *)
Definition use_exp_format (fs : float_specs) (output_exp : Z) : bool :=
  match fs_format fs with
  | Exp => true
  | General => (output_exp <? -4) || ((if decide (fs_precision fs > 0) then fs_precision fs else 16) <=? output_exp)
  | _ => false
  end.

(** do_write_float, 2854-2971. [point]: the decimal point of the locale. The run-time write_float, 2992-3011, calls
    it with digit_grouping. *)
Definition do_write_float (E : env) (locale_point : Z) (out : list Z) (s : significand) (exponent : Z)
    (sp : specs) (fs : float_specs) : res (list Z) :=
  let* ssize := get_significand_size s in
  let sg := fs_sign fs in
  let* usize := to_unsigned ssize in
  let size := usize + sign_size sg in
  let point := if fs_locale fs then locale_point else 46 in
  let output_exp := exponent + ssize - 1 in
  if use_exp_format fs output_exp then
    let* (num_zeros, point, size) :=
      if fs_showpoint fs then
        let num_zeros := fs_precision fs - ssize in
        let num_zeros := if decide (num_zeros < 0) then 0 else num_zeros in
        let* z := to_unsigned num_zeros in
        Ok (num_zeros, point, size + z)
      else if decide (ssize = 1) then Ok (0, 0, size)
      else Ok (0, point, size) in
    let abs_output_exp := if decide (0 <= output_exp) then output_exp else - output_exp in
    let exp_digits := if decide (100 <= abs_output_exp) then (if decide (1000 <= abs_output_exp) then 4 else 3) else 2 in
    let* more := to_unsigned ((if decide (point = 0) then 0 else 1) + 2 + exp_digits) in
    let size := size + more in
    let write (it : list Z) :=
      let it := it ++ sign_chars sg in
      let* cs := write_point s ssize 1 point in
      let it := it ++ cs ++ replicate (Z.to_nat num_zeros) 48 in
      let it := it ++ [if fs_upper fs then 69 else 101] in
      let* cs := write_exponent output_exp in Ok (it ++ cs) in
    if decide (width sp > 0) then write_padded true out sp size size write else write out
  else
    let exp := exponent + ssize in
    if decide (0 <= exponent) then
      let* z := to_unsigned exponent in
      let size := size + z in
      let num_zeros := fs_precision fs - exp in
      let* (num_zeros, size) :=
        if fs_showpoint fs then
          let size := size + 1 in
          let num_zeros := if decide (num_zeros <= 0 /\ fs_format fs <> Fixed) then 0 else num_zeros in
          if decide (num_zeros > 0) then let* z := to_unsigned num_zeros in Ok (num_zeros, size + z)
          else Ok (num_zeros, size)
        else Ok (num_zeros, size) in
      let G := float_grouping E (fs_locale fs) in
      let* seps := count_separators G exp in
      let* seps := to_unsigned seps in
      write_padded true out sp (size + seps) (size + seps) (fun it =>
        let it := it ++ sign_chars sg in
        let* it := write_with_zeros G it s ssize exponent in
        if negb (fs_showpoint fs) then Ok it
        else Ok (it ++ point :: replicate (Z.to_nat num_zeros) 48))
    else if decide (0 < exp) then
      let num_zeros := if fs_showpoint fs then fs_precision fs - ssize else 0 in
      let* z := to_unsigned (if decide (num_zeros > 0) then num_zeros else 0) in
      let size := size + 1 + z in
      let G := float_grouping E (fs_locale fs) in
      let* seps := count_separators G exp in
      let* seps := to_unsigned seps in
      write_padded true out sp (size + seps) (size + seps) (fun it =>
        let it := it ++ sign_chars sg in
        let* it := write_point_grouped G it s ssize exp point in
        Ok (it ++ replicate (Z.to_nat num_zeros) 48))
    else
      let num_zeros := - exp in
      let num_zeros :=
        if decide (ssize = 0 /\ 0 <= fs_precision fs /\ fs_precision fs < num_zeros) then fs_precision fs else num_zeros in
      let pointy := negb (num_zeros =? 0) || negb (ssize =? 0) || fs_showpoint fs in
      let* z := to_unsigned num_zeros in
      let size := size + 1 + (if pointy then 1 else 0) + z in
      write_padded true out sp size size (fun it =>
        let it := it ++ sign_chars sg ++ [48] in
        if negb pointy then Ok it
        else
          let it := it ++ point :: replicate (Z.to_nat num_zeros) 48 in
          let* cs := write_digits s ssize in Ok (it ++ cs)).

(** ** write(value) without specs, 3958-3983, for a float or double with the bits [br]. *)
Definition sign_bit (I : float_info) (br : Z) : bool := Z.testbit br (carrier_bits I - 1).
(** value = -value of a negative one: the sign bit is cleared. *)
Definition magnitude (I : float_info) (br : Z) : Z := Z.land br (Z.ones (carrier_bits I - 1)).
Definition write_float_default (E : env) (I : float_info) {C} (A : cache_accessor C) (out : list Z) (br : Z) : res (list Z) :=
  let fs := if sign_bit I br then set_fs_sign float_specs_zero SMinus else float_specs_zero in
  let br := magnitude I br in
  let mask := exponent_mask I in
  if decide (Z.land br mask = mask) then
    write_nonfinite out (negb (Z.land br (Z.ones (num_significand_bits I)) =? 0)) default_specs fs
  else
    let* (n, e) := to_decimal I A br in
    do_write_float E 46 out (SNumber (carrier_bits I) n) e default_specs fs.
Definition write_double (E : env) : list Z -> Z -> res (list Z) := write_float_default E float_info_double accessor_double.
Definition write_float (E : env) : list Z -> Z -> res (list Z) := write_float_default E float_info_float accessor_float.
