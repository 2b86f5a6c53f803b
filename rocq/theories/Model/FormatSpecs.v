(** Model of format specs and of what is written with them: the parts of /repo/include/efp/fmt/core.h and fmt/format.h
    for integers, chars and strings. Chars are their bytes, 0 to 255: no comparison of a char below depends on its
    sign, except where said. *)
From Verif Require Import Base.Cpp Model.Numeric Model.FmtInt Model.Utf8 Model.Escape.
Local Open Scope Z_scope.

(** ** Specs *)

(** align, sign and presentation_type, core.h:2257-2329. *)
Inductive align : Type := ANone | ALeft | ARight | ACenter | ANumeric.
Inductive sign : Type := SNone | SMinus | SPlus | SSpace.
Inductive pres : Type :=
| PNone | PDec | POct | PHexLower | PHexUpper | PBinLower | PBinUpper | PHexFloat (upper : bool) | PExp (upper : bool)
| PFixed (upper : bool) | PGeneral (upper : bool) | PChr | PString | PPointer | PDebug.
Global Instance align_eq_dec : EqDecision align. Proof. solve_decision. Defined.
Global Instance sign_eq_dec : EqDecision sign. Proof. solve_decision. Defined.
Global Instance pres_eq_dec : EqDecision pres. Proof. solve_decision. Defined.

(** arg_ref, core.h:2352-2376. *)
Inductive ref : Type := RNone | RIndex (id : Z) | RName (name : list Z).

(** dynamic_format_specs, core.h:2332-2387; the fill is its chars, 1 to 4 of them. *)
Record specs : Type := Specs {
  width : Z; precision : Z; typ : pres; al : align; sgn : sign; alt : bool; localized : bool;
  fill : list Z; width_ref : ref; precision_ref : ref }.
Definition default_specs : specs := Specs 0 (-1) PNone ANone SNone false false [32] RNone RNone.
Definition set_width s x := Specs x (precision s) (typ s) (al s) (sgn s) (alt s) (localized s) (fill s) (width_ref s) (precision_ref s).
Definition set_precision s x := Specs (width s) x (typ s) (al s) (sgn s) (alt s) (localized s) (fill s) (width_ref s) (precision_ref s).
Definition set_typ s x := Specs (width s) (precision s) x (al s) (sgn s) (alt s) (localized s) (fill s) (width_ref s) (precision_ref s).
Definition set_al s x := Specs (width s) (precision s) (typ s) x (sgn s) (alt s) (localized s) (fill s) (width_ref s) (precision_ref s).
Definition set_sgn s x := Specs (width s) (precision s) (typ s) (al s) x (alt s) (localized s) (fill s) (width_ref s) (precision_ref s).
Definition set_alt s x := Specs (width s) (precision s) (typ s) (al s) (sgn s) x (localized s) (fill s) (width_ref s) (precision_ref s).
Definition set_localized s x := Specs (width s) (precision s) (typ s) (al s) (sgn s) (alt s) x (fill s) (width_ref s) (precision_ref s).
Definition set_fill s x := Specs (width s) (precision s) (typ s) (al s) (sgn s) (alt s) (localized s) x (width_ref s) (precision_ref s).
Definition set_width_ref s x := Specs (width s) (precision s) (typ s) (al s) (sgn s) (alt s) (localized s) (fill s) x (precision_ref s).
Definition set_precision_ref s x := Specs (width s) (precision s) (typ s) (al s) (sgn s) (alt s) (localized s) (fill s) (width_ref s) x.

(** What the environment decides: whether the output has room for [n] more chars (to_pointer,
    format.h:659-668), and the grouping, the separator and the decimal point of the locale. *)
Record env : Type := Env { room : list Z -> nat -> bool; grouping : list Z; sep : list Z; point : Z }.

(** ** Writing, format.h. The output is the list of chars written; a writer appends to it. *)

(** fill, 1921-1930. *)
Definition fill_with (out : list Z) (n : nat) (f : list Z) : list Z := Nat.iter n (fun out => out ++ f) out.

(** write_padded, 1936-1961; [right] is the template argument align::right. The index of the shift is
    the alignment; the last shift is the terminating zero of the literal. *)
Definition align_index (a : align) : nat :=
  match a with ANone => 0 | ALeft => 1 | ARight => 2 | ACenter => 3 | ANumeric => 4 end%nat.
Definition write_padded (right : bool) (out : list Z) (sp : specs) (size wd : Z) (f : list Z -> res (list Z)) : res (list Z) :=
  let padding := if decide (width sp > wd) then width sp - wd else 0 in
  let* shift := get (if right then [0; 31; 0; 1; 0] else [31; 31; 0; 1; 0]) (align_index (al sp)) in
  let left_padding := Z.shiftr padding shift in
  let right_padding := padding - left_padding in
  let it := if decide (left_padding <> 0) then fill_with out (Z.to_nat left_padding) (fill sp) else out in
  let* it := f it in
  Ok (if decide (right_padding <> 0) then fill_with it (Z.to_nat right_padding) (fill sp) else it).

(** write_bytes, 1963-1970. *)
Definition write_bytes (out bytes : list Z) (sp : specs) : res (list Z) :=
  write_padded false out sp (Z.of_nat (length bytes)) (Z.of_nat (length bytes)) (fun it => Ok (it ++ bytes)).

(** write_char, 2146-2156. *)
Definition write_char (out : list Z) (value : Z) (sp : specs) : res (list Z) :=
  write_padded false out sp 1 1 (fun it =>
    if decide (typ sp = PDebug) then write_escaped_char it value else Ok (it ++ [value])).

(** The chars of a prefix, 2205-2206 and 2212-2213: the low three bytes, up to the first zero. *)
Definition put_prefix (out : list Z) (prefix : Z) : res (list Z) :=
  loop 4 (fun '(out, p) =>
    Ok (if decide (p <> 0) then inl (out ++ [Z.land p 255], Z.shiftr p 8) else inr out)) (out, Z.land prefix 16777215).

(** write_int with the digits, 2193-2217, and write_int_data, 2169-2187. *)
Definition write_int_digits (out : list Z) (num_digits prefix : Z) (sp : specs) (write_digits : list Z -> res (list Z)) : res (list Z) :=
  if decide (Z.lor (width sp) (precision sp + 1) = 0) then
    let* it := if decide (prefix <> 0) then put_prefix out prefix else Ok out in
    write_digits it
  else
    let size := Z.shiftr prefix 24 + num_digits in
    let '(size, padding) :=
      if decide (al sp = ANumeric) then
        if decide (width sp > size) then (width sp, width sp - size) else (size, 0)
      else if decide (precision sp > num_digits) then
        (Z.shiftr prefix 24 + precision sp, precision sp - num_digits)
      else (size, 0) in
    write_padded true out sp size size (fun it =>
      let* it := put_prefix it prefix in
      write_digits (it ++ replicate (Z.to_nat padding) 48)).

(** digit_grouping::next, 2233-2243: the position, and where the next group is read. max_value<int>() is
    [max_int]. Groups are signed chars. *)
Definition max_int : Z := 2147483647.
Definition group_next (E : env) (group : nat) (pos : Z) : res (Z * (nat * Z)) :=
  match sep E with
  | [] => Ok (max_int, (group, pos))
  | _ =>
      if decide (group = length (grouping E)) then
        let* g := get (grouping E) (length (grouping E) - 1) in
        let pos := pos + g in Ok (pos, (group, pos))
      else
        let* g := get (grouping E) group in
        if decide (g <= 0 \/ g = 127) then Ok (max_int, (group, pos))
        else let pos := pos + g in Ok (pos, (S group, pos))
  end.
(** digit_grouping::count_separators, 2262-2268. *)
Definition count_separators (E : env) (num_digits : Z) : res Z :=
  loop (S (Z.to_nat num_digits)) (fun '(count, (group, pos)) =>
    let* (i, st) := group_next E group pos in
    Ok (if decide (num_digits > i) then inl (count + 1, st) else inr count)) (0, (0%nat, 0)).
(** digit_grouping::apply, 2271-2295. *)
Definition group_apply (E : env) (out digits : list Z) : res (list Z) :=
  let num_digits := length digits in
  let* separators := loop (S num_digits) (fun '(separators, (group, pos)) =>
    let* (i, st) := group_next E group pos in
    Ok (if decide (i = 0) then inr separators
        else if decide (i >= Z.of_nat num_digits) then inr separators
        else inl (separators ++ [i], st))) ([0], (0%nat, 0)) in
  let* (out, _) := for_up num_digits 0 (fun i '(out, sep_index) =>
    let* s := if decide (0 <= sep_index) then get separators (Z.to_nat sep_index) else UB OutOfBounds in
    let '(out, sep_index) :=
      if decide (Z.of_nat (num_digits - i) = s) then (out ++ sep E, sep_index - 1) else (out, sep_index) in
    let* d := get digits i in
    Ok (out ++ [d], sep_index)) (out, Z.of_nat (length separators) - 1) in
  Ok out.
(** write_int with grouping, 2298-2320: of a 64-bit value. *)
Definition write_int_grouped (E : env) (out : list Z) (value prefix : Z) (sp : specs) : res (list Z) :=
  let* num_digits := count_digits 64 value in
  let* (digits, _, _) := format_decimal (replicate 40 None) value (Z.to_nat num_digits) in
  let* digits := read_all (take (Z.to_nat num_digits) digits) in
  let* separators := count_separators E num_digits in
  let size := (if decide (prefix <> 0) then 1 else 0) + num_digits + separators in
  write_padded true out sp size size (fun it =>
    let it := if decide (prefix <> 0) then it ++ [prefix mod 256] else it in
    group_apply E it digits).

(** prefix_append, 2331-2334; no sum reaches 2^32. *)
Definition prefix_append (prefix value : Z) : Z :=
  Z.lor prefix (if decide (prefix <> 0) then Z.shiftl value 8 else value)
  + Z.shiftl (1 + if decide (value > 255) then 1 else 0) 24.

(** make_write_int_arg, 2341-2356: the absolute value and the prefix. *)
Definition sign_prefix (c : Z) : Z := Z.lor 16777216 c.
Definition make_write_int_arg (t : ity) (value : Z) (sg : sign) : Z * Z :=
  let w := uwidth t in
  let abs_value := value mod 2 ^ w in
  if is_negative t value then ((0 - abs_value) mod 2 ^ w, sign_prefix 45)
  else (abs_value, match sg with SNone | SMinus => 0 | SPlus => sign_prefix 43 | SSpace => sign_prefix 32 end).

(** write_int by presentation, 2384-2433, for an unsigned type of [w] bits. *)
Definition write_uint_digits (E : env) (w bits num_digits abs_value : Z) (upper : bool) (it : list Z) : res (list Z) :=
  let n := Z.to_nat num_digits in
  let* cs := format_uint_it (room E it n) w bits abs_value n upper in Ok (it ++ cs).
Definition write_int_arg (E : env) (out : list Z) (w abs_value prefix : Z) (sp : specs) : res (list Z) :=
  match typ sp with
  | PNone | PDec =>
      let* num_digits := count_digits w abs_value in
      write_int_digits out num_digits prefix sp (fun it =>
        let* cs := format_decimal_it w abs_value (Z.to_nat num_digits) in Ok (it ++ cs))
  | PHexLower | PHexUpper =>
      let upper := bool_decide (typ sp = PHexUpper) in
      let prefix := if alt sp then prefix_append prefix (Z.lor (Z.shiftl (if upper then 88 else 120) 8) 48) else prefix in
      let* num_digits := count_digits_bits w 4 abs_value in
      write_int_digits out num_digits prefix sp (write_uint_digits E w 4 num_digits abs_value upper)
  | PBinLower | PBinUpper =>
      let upper := bool_decide (typ sp = PBinUpper) in
      let prefix := if alt sp then prefix_append prefix (Z.lor (Z.shiftl (if upper then 66 else 98) 8) 48) else prefix in
      let* num_digits := count_digits_bits w 1 abs_value in
      write_int_digits out num_digits prefix sp (write_uint_digits E w 1 num_digits abs_value false)
  | POct =>
      let* num_digits := count_digits_bits w 3 abs_value in
      let prefix := if decide (alt sp = true /\ precision sp <= num_digits /\ abs_value <> 0) then prefix_append prefix 48 else prefix in
      write_int_digits out num_digits prefix sp (write_uint_digits E w 3 num_digits abs_value false)
  | PChr => write_char out (abs_value mod 256) sp
  | _ => Throw
  end.
(** write(T, specs) for integers, 2446-2459; localized by loc_writer, 2366-2376. *)
Definition write_int_specs (E : env) (out : list Z) (t : ity) (value : Z) (sp : specs) : res (list Z) :=
  let '(abs_value, prefix) := make_write_int_arg t value (sgn sp) in
  if localized sp then write_int_grouped E out abs_value prefix sp
  else write_int_arg E out (uwidth t) abs_value prefix sp.

(** check_char_specs, core.h:2891-2901. *)
Definition check_char_specs (sp : specs) : res bool :=
  match typ sp with
  | PNone | PChr | PDebug =>
      if decide (al sp = ANumeric \/ sgn sp <> SNone \/ alt sp = true) then Throw else Ok true
  | _ => Ok false
  end.

(** write(string_view, specs), 2523-2543. *)
Definition write_string (out s : list Z) (sp : specs) : res (list Z) :=
  let* size :=
    if decide (0 <= precision sp /\ precision sp < Z.of_nat (length s)) then code_point_index s (precision sp)
    else Ok (length s) in
  let* wd :=
    if decide (width sp <> 0) then
      if decide (typ sp = PDebug) then let* e := write_escaped_string [] s in Ok (Z.of_nat (length e))
      else compute_width (take size s)
    else Ok 0 in
  write_padded false out sp (Z.of_nat size) wd (fun it =>
    if decide (typ sp = PDebug) then write_escaped_string it s else Ok (it ++ take size s)).

(** write_ptr, 1972-1984, with specs: an address is 64 bits wide. *)
Definition write_ptr (E : env) (out : list Z) (value : Z) (sp : specs) : res (list Z) :=
  let* num_digits := count_digits_bits 64 4 value in
  let size := num_digits + 2 in
  write_padded true out sp size size (fun it => write_uint_digits E 64 4 num_digits value false (it ++ [48; 120])).

(** basic_string_view of a const char*, core.h:433-443: the chars before the first that is 0, of those from the pointer to
    the end of its array. *)
Fixpoint c_string (chars : list Z) : res (list Z) :=
  match chars with
  | [] => UB OutOfBounds
  | c :: chars => if decide (c = 0) then Ok [] else let* s := c_string chars in Ok (c :: s)
  end.
(** write of a const char* with specs, 2555-2563, and without, 4036-4041. A null pointer has address 0. *)
Definition write_cstring (E : env) (out : list Z) (addr : Z) (chars : list Z) (sp : specs) : res (list Z) :=
  if decide (typ sp = PPointer) then write_ptr E out addr sp
  else if decide (addr = 0) then Throw
  else let* s := c_string chars in write_string out s sp.
Definition write_cstring_default (out : list Z) (addr : Z) (chars : list Z) : res (list Z) :=
  if decide (addr <> 0) then let* s := c_string chars in Ok (out ++ s) else Throw.
