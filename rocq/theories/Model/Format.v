(** Model of formatting: /repo/include/efp/format.hpp, and the parts of fmt/core.h and fmt/format.h it
    uses for integers, bool, char, float, double, strings, C strings, pointers and sequences of them. Chars are their bytes, 0 to 255: no
    comparison of a char below depends on its sign, except where said.

    Not modelled: long double and 128-bit integers. Addresses are 64 bits wide. *)
From Verif Require Import Base.Cpp Model.Numeric Model.FmtInt Model.Utf8 Model.Escape Model.Dragonbox.
From Verif Require Export Model.FormatSpecs.
From Verif Require Import Model.FloatLayout Model.FloatDigits.
Local Open Scope Z_scope.

(** ** Values *)

(** A float or a double is given by its bits, a pointer (const void*, nullptr) by its address, a const char* by its address
    and the chars from there to the end of their array. *)
Inductive scalar : Type :=
| VInt (t : ity) (z : Z) | VBool (b : bool) | VChar (c : Z) | VStr (s : list Z)
| VFloat (bits : Z) | VDouble (bits : Z) | VCstr (addr : Z) (chars : list Z) | VPtr (addr : Z).
(** type, core.h:632-652, of the modelled values. *)
Inductive ty : Type := TSInt | TUInt | TBool | TChar | TStr | TFloat | TDouble | TCstr | TPtr.
Definition type_of (v : scalar) : ty :=
  match v with
  | VInt t _ => if signed t then TSInt else TUInt | VBool _ => TBool | VChar _ => TChar | VStr _ => TStr
  | VFloat _ => TFloat | VDouble _ => TDouble | VCstr _ _ => TCstr | VPtr _ => TPtr
  end.
(** sint_set to char_set, and float_set, core.h:654-665. *)
Definition is_integral (t : ty) : bool := match t with TSInt | TUInt | TBool | TChar => true | _ => false end.
Definition is_floating (t : ty) : bool := match t with TFloat | TDouble => true | _ => false end.
(** is_arithmetic_type, core.h:642-644: bool and char are, and floats. *)
Definition is_arithmetic (t : ty) : bool := match t with TStr | TCstr | TPtr => false | _ => true end.

(** The presentations of floats, as parse_float_type_spec, 2657-2697, has them; the others are an error. *)
Definition float_presentation (p : pres) : option float_pres :=
  match p with
  | PNone => Some FNone | PGeneral u => Some (FGeneral u) | PExp u => Some (FExp u) | PFixed u => Some (FFixed u)
  | PHexFloat u => Some (FHex u) | _ => None
  end.
(** write(value, specs) of floats, 3944-3953: write_loc, format-inl.h:117-130, with loc_writer, format.h:2358-2381, writes
    none of them. *)
Definition write_floating (E : env) (I : float_info) (out : list Z) (bits : Z) (sp : specs) : res (list Z) :=
  match float_presentation (typ sp) with
  | Some p => write_float_specs E (point E) I out bits p sp
  | None => Throw
  end.

(** write(value, specs) by type: integers, bool 4021-4027, char 2158-2165, string, floats, const char*, pointers 4043-4047. *)
Definition bool_name (b : bool) : list Z := if b then [116; 114; 117; 101] else [102; 97; 108; 115; 101].
Definition write_value (E : env) (out : list Z) (v : scalar) (sp : specs) : res (list Z) :=
  match v with
  | VInt t z => write_int_specs E out t z sp
  | VBool b =>
      if decide (typ sp <> PNone /\ typ sp <> PString) then write_int_specs E out int32 (if b then 1 else 0) sp
      else write_bytes out (bool_name b) sp
  | VChar c =>
      let* charlike := check_char_specs sp in
      if (charlike : bool) then write_char out c sp else write_int_specs E out (ITy 8 false) c sp
  | VStr s => write_string out s sp
  | VFloat bits => write_floating E float_info_float out bits sp
  | VDouble bits => write_floating E float_info_double out bits sp
  | VCstr addr chars => write_cstring E out addr chars sp
  | VPtr addr => write_ptr E out addr sp
  end.
(** write(value) by type: integers, bool, char 4029-4034, string, floats, const char*, pointers 4043-4047. *)
Definition write_value_default (E : env) (out : list Z) (v : scalar) : res (list Z) :=
  match v with
  | VInt t z =>
      let w := uwidth t in
      let abs_value := z mod 2 ^ w in
      let* num_digits := count_digits w (if is_negative t z then (Z.lnot abs_value mod 2 ^ w + 1) mod 2 ^ w else abs_value) in
      let size := ((if is_negative t z then 1 else 0) + Z.to_nat num_digits)%nat in
      let* cs := write_default (room E out size) t z in Ok (out ++ cs)
  | VBool b => write_bytes out (bool_name b) default_specs
  | VChar c => Ok (out ++ [c])
  | VStr s => Ok (out ++ s)
  | VFloat bits => write_float E out bits
  | VDouble bits => write_double E out bits
  | VCstr addr chars => write_cstring_default out addr chars
  | VPtr addr => write_ptr E out addr default_specs
  end.

(** ** Parsing, core.h. A position in the format string is an index; [end] is its length. *)

Definition is_digit (c : Z) : bool := (48 <=? c) && (c <=? 57).

(** next_arg_id and check_arg_id, 736-757, at run time: on the next id, or -1 for manual. *)
Definition next_arg_id (next : Z) : res (Z * Z) := if decide (next < 0) then Throw else Ok (next, next + 1).
Definition check_arg_id (next : Z) : res Z := if decide (next > 0) then Throw else Ok (-1).

(** code_point_length, 2401-2406. *)
Definition code_point_length (c : Z) : nat :=
  Z.to_nat (Z.land (Z.shiftr 0x3a55000000000000 (2 * Z.shiftr c 3)) 3 + 1).

(** parse_nonnegative_int, 2427-2450: the position after the digits, and the value. *)
Definition parse_nonnegative_int (s : list Z) (begin : nat) (error_value : Z) : res (nat * Z) :=
  let* (value, prev, p) := loop (S (length s)) (fun '(value, prev, p) =>
    let prev := value in
    let* c := get s p in
    let value := (value * 10 + (c - 48)) mod 2 ^ 32 in
    let p := S p in
    if decide (p = length s) then Ok (inr (value, prev, p))
    else
      let* c := get s p in
      Ok (if is_digit c then inl (value, prev, p) else inr (value, prev, p))) (0, 0, begin) in
  let num_digits := (p - begin)%nat in
  if decide (num_digits <= 9)%nat then Ok (p, value)
  else
    let* last := get s (p - 1) in
    Ok (p, if decide (num_digits = 10%nat /\ prev * 10 + (last - 48) <= max_int) then value else error_value).

(** parse_align, 2452-2462. *)
Definition parse_align (c : Z) : align :=
  if decide (c = 60) then ALeft else if decide (c = 62) then ARight else if decide (c = 94) then ACenter else ANone.

(** is_name_start, 2464-2466. *)
Definition is_name_start (c : Z) : bool := ((97 <=? c) && (c <=? 122)) || ((65 <=? c) && (c <=? 90)) || (c =? 95).

(** parse_arg_id, 2468-2505: what was parsed is returned, for the handler to act on. *)
Inductive arg_id : Type := Auto | Index (id : Z) | Name (name : list Z).
Definition slice (s : list Z) (from to : nat) : list Z := take (to - from) (drop from s).
Definition parse_arg_id (s : list Z) (begin : nat) : res (nat * arg_id) :=
  let* c := get s begin in
  if decide (c <> 125 /\ c <> 58) then
    if is_digit c then
      let* (begin, index) := if decide (c <> 48) then parse_nonnegative_int s begin max_int else Ok (S begin, 0) in
      if decide (begin = length s) then Throw
      else
        let* c := get s begin in
        if decide (c <> 125 /\ c <> 58) then Throw else Ok (begin, Index index)
    else if is_name_start c then
      let* it := loop (S (length s)) (fun it =>
        let it := S it in
        if decide (it = length s) then Ok (inr it)
        else let* c := get s it in Ok (if is_name_start c || is_digit c then inl it else inr it)) begin in
      Ok (it, Name (slice s begin it))
    else Throw
  else Ok (begin, Auto).

(** dynamic_spec_id_handler, 2507-2528. *)
Definition dynamic_id (id : arg_id) (next : Z) : res (ref * Z) :=
  match id with
  | Auto => let* (id, next) := next_arg_id next in Ok (RIndex id, next)
  | Index id => let* next := check_arg_id next in Ok (RIndex id, next)
  | Name n => Ok (RName n, next)
  end.

(** parse_dynamic_spec, 2531-2557: the position, the value and the reference if they were set, and the
    next id. *)
Definition parse_dynamic_spec (s : list Z) (begin : nat) (next : Z) : res (nat * option Z * option ref * Z) :=
  let* c := get s begin in
  if is_digit c then
    let* (begin, val) := parse_nonnegative_int s begin (-1) in
    if decide (val <> -1) then Ok (begin, Some val, None, next) else Throw
  else if decide (c = 123) then
    let begin := S begin in
    if decide (begin = length s) then Throw
    else
      let* (begin, id) := parse_arg_id s begin in
      let* (r, next) := dynamic_id id next in
      if decide (begin = length s) then Throw
      else
        let* c := get s begin in
        if decide (c = 125) then Ok (S begin, None, Some r, next) else Throw
  else Ok (begin, None, None, next).

(** parse_precision, 2559-2573. *)
Definition parse_precision (s : list Z) (begin : nat) (next : Z) : res (nat * option Z * option ref * Z) :=
  let begin := S begin in
  if decide (begin = length s) then Throw
  else
    let* c := get s begin in
    if decide (c = 125) then Throw else parse_dynamic_spec s begin next.

(** enter_state in parse_format_specs, 2596-2604: [state] numbered in the order of the enum, 2575. *)
Definition enter_state (current st : nat) (valid : bool) : res nat :=
  if decide (st <= current \/ valid = false)%nat then Throw else Ok st.
Definition set_opt {A} (f : specs -> A -> specs) (sp : specs) (x : option A) : specs :=
  match x with Some x => f sp x | None => sp end.
(** The presentation of a char, with the types it may have: 2684-2725. That of pointers is
    for no modelled type. *)
Definition presentation (c : Z) : option (pres * (ty -> bool)) :=
  if decide (c = 100) then Some (PDec, is_integral)
  else if decide (c = 111) then Some (POct, is_integral)
  else if decide (c = 120) then Some (PHexLower, is_integral)
  else if decide (c = 88) then Some (PHexUpper, is_integral)
  else if decide (c = 98) then Some (PBinLower, is_integral)
  else if decide (c = 66) then Some (PBinUpper, is_integral)
  else if decide (c = 97) then Some (PHexFloat false, is_floating)
  else if decide (c = 65) then Some (PHexFloat true, is_floating)
  else if decide (c = 101) then Some (PExp false, is_floating)
  else if decide (c = 69) then Some (PExp true, is_floating)
  else if decide (c = 102) then Some (PFixed false, is_floating)
  else if decide (c = 70) then Some (PFixed true, is_floating)
  else if decide (c = 103) then Some (PGeneral false, is_floating)
  else if decide (c = 71) then Some (PGeneral true, is_floating)
  else if decide (c = 99) then Some (PChr, is_integral)
  else if decide (c = 115) then Some (PString, fun t => match t with TBool | TStr | TCstr => true | _ => false end)
  else if decide (c = 63) then Some (PDebug, fun t => match t with TChar | TStr | TCstr => true | _ => false end)
  else if decide (c = 112) then Some (PPointer, fun t => match t with TPtr | TCstr => true | _ => false end)
  else if decide (c = 112) then Some (PNone, fun _ => false)
  else None.

(** The step of parse_format_specs, 2625-2758: the state is the position, the char, the state of the
    syntax, the specs and the next id. *)
Definition pst : Type := nat * Z * nat * specs * Z.
(** To the next char, 2757-2758. *)
Definition continue_at (s : list Z) (begin st : nat) (sp : specs) (next : Z) : res (pst + nat * specs * Z) :=
  if decide (begin = length s) then Ok (inr (begin, sp, next))
  else let* c := get s begin in Ok (inl (begin, c, st, sp, next)).
Definition specs_step (s : list Z) (t : ty) : pst -> res (pst + nat * specs * Z) := fun '(begin, c, st, sp, next) =>
  if decide (c = 60 \/ c = 62 \/ c = 94) then
    let* st := enter_state st 1 true in
    continue_at s (S begin) st (set_al sp (parse_align c)) next
  else if decide (c = 43 \/ c = 45 \/ c = 32) then
    let* st := enter_state st 2 (match t with TSInt => true | _ => is_floating t end) in
    continue_at s (S begin) st
      (set_sgn sp (if decide (c = 43) then SPlus else if decide (c = 45) then SMinus else SSpace)) next
  else if decide (c = 35) then
    let* st := enter_state st 3 (is_arithmetic t) in
    continue_at s (S begin) st (set_alt sp true) next
  else if decide (c = 48) then
    let* st := enter_state st 4 true in
    if is_arithmetic t then
      continue_at s (S begin) st
        (if decide (al sp = ANone) then set_fill (set_al sp ANumeric) (<[0%nat := 48]> (fill sp)) else sp) next
    else Throw
  else if is_digit c || (c =? 123) then
    let* st := enter_state st 5 true in
    let* (begin, v, r, next) := parse_dynamic_spec s begin next in
    continue_at s begin st (set_opt set_width_ref (set_opt set_width sp v) r) next
  else if decide (c = 46) then
    let* st := enter_state st 6 (match t with TStr | TCstr => true | _ => is_floating t end) in
    let* (begin, v, r, next) := parse_precision s begin next in
    continue_at s begin st (set_opt set_precision_ref (set_opt set_precision sp v) r) next
  else if decide (c = 76) then
    let* st := enter_state st 7 (is_arithmetic t) in
    continue_at s (S begin) st (set_localized sp true) next
  else
    match presentation c with
    | Some (p, set) => if set t then Ok (inr (S begin, set_typ sp p, next)) else Throw
    | None =>
        if decide (c = 125) then Ok (inr (begin, sp, next))
        else
          let* b := get s begin in
          if decide (b = 125) then Ok (inr (begin, sp, next))
          else
            let fill_end := (begin + code_point_length b)%nat in
            if decide (length s <= fill_end)%nat then Throw
            else if decide (b = 123) then Throw
            else
              let* a := get s fill_end in
              let* st := enter_state st 1 (bool_decide (parse_align a <> ANone)) in
              continue_at s (S fill_end) st (set_al (set_fill sp (slice s begin fill_end)) (parse_align a)) next
    end.
(** parse_format_specs, 2578-2762. *)
Definition parse_format_specs (s : list Z) (begin : nat) (t : ty) (next : Z) : res (nat * specs * Z) :=
  if decide (begin = length s) then Ok (begin, default_specs, next)
  else
    let* b := get s begin in
    let* c :=
      if decide (1 < length s - begin)%nat then
        let* n := get s (S begin) in Ok (if decide (parse_align n = ANone) then b else 0)
      else Ok b in
    loop (S (length s)) (specs_step s t) (begin, c, 0%nat, default_specs, next).

(** ** Formatting *)

(** The arguments, and the names of some of them with their index. [C]: the values of types with a
    formatter of their own. *)
Inductive arg (C : Type) : Type := AScalar (v : scalar) | ACustom (c : C).
Arguments AScalar {C} v.
Arguments ACustom {C} c.
Record args (C : Type) : Type := Args { argv : list (arg C); names : list (list Z * Z) }.
Arguments Args {C} _ _.
Arguments argv {C} _.
Arguments names {C} _.

Section args.
  Context {C : Type}.
  Implicit Types A : args C.
  (** basic_format_args::get, 2207-2237; get_arg, format.h:4186-4192. *)
  Definition get_arg (A : args C) (id : Z) : res (arg C) :=
    if decide (0 <= id < Z.of_nat (length (argv A))) then get (argv A) (Z.to_nat id) else Throw.
  Definition get_id (A : args C) (name : list Z) : Z :=
    match list_find (fun '(n, _) => n = name) (names A) with Some (_, (_, id)) => id | None => -1 end.

  (** get_dynamic_spec and handle_dynamic_spec, format.h:4134-4210. *)
  Definition get_dynamic_spec (a : arg C) : res Z :=
    match a with
    | AScalar (VInt t v) => if decide (v < 0) then Throw else if decide (v > max_int) then Throw else Ok v
    | _ => Throw
    end.
  Definition handle_dynamic_spec (A : args C) (value : Z) (r : ref) : res Z :=
    match r with
    | RNone => Ok value
    | RIndex id => let* a := get_arg A id in get_dynamic_spec a
    | RName n => let* a := get_arg A (get_id A n) in get_dynamic_spec a
    end.

  (** format_handler::on_arg_id, format.h:4759-4772. *)
  Definition on_arg_id (A : args C) (id : arg_id) (next : Z) : res (Z * Z) :=
    match id with
    | Auto => next_arg_id next
    | Index id => let* next := check_arg_id next in Ok (id, next)
    | Name n => let id := get_id A n in if decide (id < 0) then Throw else Ok (id, next)
    end.

End args.

(** find (memchr), 2410-2423: the first position from [first] to [last] with the char. *)
Definition find_char (s : list Z) (first last : nat) (c : Z) : option nat :=
  (fun '(i, _) => (first + i)%nat) <$> list_find (fun x => x = c) (slice s first last).
(** writer, 2836-2851. *)
Definition write_text (s : list Z) (from to : nat) (out : list Z) : res (list Z) :=
  if decide (from = to) then Ok out
  else
    loop (S (length s)) (fun '(from, out) =>
      match find_char s from to 125 with
      | None => Ok (inr (out ++ slice s from to))
      | Some p =>
          let p := S p in
          if decide (p = to) then Throw
          else
            let* c := get s p in
            if decide (c <> 125) then Throw else Ok (inl (S p, out ++ slice s from p))
      end) (from, out).

(** parse_replacement_field, 2764-2806: from '{', with the handler. [on_id] is its on_arg_id; [on_plain] its
    on_replacement_field, and [on_specs] its on_format_specs, given the id, the position, the next id and the output. *)
Definition replacement_field (s : list Z) (on_id : arg_id -> Z -> res (Z * Z)) (on_plain : Z -> nat -> Z -> list Z -> res (list Z))
    (on_specs : Z -> nat -> Z -> list Z -> res (nat * Z * list Z)) (begin : nat) (next : Z) (out : list Z) : res (nat * Z * list Z) :=
  let begin := S begin in
  if decide (begin = length s) then Throw
  else
    let* c := get s begin in
    if decide (c = 125) then
      let* (id, next) := on_id Auto next in
      let* out := on_plain id begin next out in
      Ok (S begin, next, out)
    else if decide (c = 123) then Ok (S begin, next, out ++ slice s begin (S begin))
    else
      let* (begin, id) := parse_arg_id s begin in
      let* (id, next) := on_id id next in
      let* c := if decide (begin <> length s) then get s begin else Ok 0 in
      if decide (c = 125) then
        let* out := on_plain id begin next out in
        Ok (S begin, next, out)
      else if decide (c = 58) then
        let* (begin, next, out) := on_specs id (S begin) next out in
        if decide (begin = length s) then Throw
        else
          let* b := get s begin in
          if decide (b <> 125) then Throw else Ok (S begin, next, out)
      else Throw.

(** parse_format_string, 2808-2863, with a handler that reads and writes the field at a position: [field] is given the
    position of its brace, the next id and the output so far. Text goes to the output. *)
Section scan.
  Context (s : list Z) (field : nat -> Z -> list Z -> res (nat * Z * list Z)).
  (** The loop for short strings, 2813-2834. *)
  Definition scan_short (out : list Z) : res (list Z) :=
    let* (begin, out) := loop (S (length s)) (fun '(begin, p, next, out) =>
      if decide (p = length s) then Ok (inr (begin, out))
      else
        let* c := get s p in
        let p := S p in
        if decide (c = 123) then
          let out := out ++ slice s begin (p - 1) in
          let* (p, next, out) := field (p - 1) next out in
          Ok (inl (p, p, next, out))
        else if decide (c = 125) then
          if decide (p = length s) then Throw
          else
            let* c := get s p in
            if decide (c <> 125) then Throw
            else Ok (inl (S p, S p, next, out ++ slice s begin p))
        else Ok (inl (begin, p, next, out))) (0%nat, 0%nat, 0, out) in
    Ok (out ++ slice s begin (length s)).

  (** The loop for long strings, 2853-2862. *)
  Definition scan_long (out : list Z) : res (list Z) :=
    loop (S (length s)) (fun '(begin, next, out) =>
      if decide (begin = length s) then Ok (inr out)
      else
        let* b := get s begin in
        let p := if decide (b <> 123) then find_char s (S begin) (length s) 123 else Some begin in
        match p with
        | None => let* out := write_text s begin (length s) out in Ok (inr out)
        | Some p =>
            let* out := write_text s begin p out in
            let* (begin, next, out) := field p next out in
            Ok (inl (begin, next, out))
        end) (0%nat, 0, out).
  Definition scan_string (out : list Z) : res (list Z) := if decide (length s < 32)%nat then scan_short out else scan_long out.
End scan.

Section custom.
  (** The formatter of [C]: [custom] parses the specs from a position, and writes. *)
  Context {C : Type} (custom : env -> args C -> C -> list Z -> nat -> Z -> list Z -> res (nat * Z * list Z)).
  Implicit Types A : args C.

  (** default_arg_formatter, format.h:4078-4098. *)
  Definition write_arg_default (E : env) (A : args C) (out : list Z) (a : arg C) : res (list Z) :=
    match a with
    | AScalar v => write_value_default E out v
    | ACustom c => let* (_, _, out) := custom E A c [] 0 0 out in Ok out
    end.
  (** format_handler::on_replacement_field, format.h:4774-4780. *)
  Definition on_replacement_field (E : env) (A : args C) (id : Z) (out : list Z) : res (list Z) :=
    let* a := get_arg A id in write_arg_default E A out a.
  (** format_handler::on_format_specs, format.h:4782-4804. *)
  Definition on_format_specs (E : env) (A : args C) (s : list Z) (id : Z) (begin : nat) (next : Z) (out : list Z) : res (nat * Z * list Z) :=
    let* a := get_arg A id in
    match a with
    | ACustom c => custom E A c s begin next out
    | AScalar v =>
        let* (begin, sp, next) := parse_format_specs s begin (type_of v) next in
        let* w := handle_dynamic_spec A (width sp) (width_ref sp) in
        let* p := handle_dynamic_spec A (precision sp) (precision_ref sp) in
        let sp := set_precision (set_width sp w) p in
        if decide (begin = length s) then Throw
        else
          let* b := get s begin in
          if decide (b <> 125) then Throw
          else let* out := write_value E out v sp in Ok (begin, next, out)
    end.

  Definition parse_replacement_field (E : env) (A : args C) (s : list Z) : nat -> Z -> list Z -> res (nat * Z * list Z) :=
    replacement_field s (on_arg_id A) (fun id _ _ out => on_replacement_field E A id out) (on_format_specs E A s).

  Definition parse_format_string (E : env) (A : args C) (s : list Z) (out : list Z) : res (list Z) :=
    scan_string s (parse_replacement_field E A s) out.

  (** vformat_to, format.h:4726-4808. *)
  Definition vformat_to (E : env) (A : args C) (s : list Z) (out : list Z) : res (list Z) :=
    if decide (s = [123; 125]) then
      let* a := get_arg A 0 in write_arg_default E A out a
    else parse_format_string E A s out.
End custom.

(** ** Sequences *)

(** join_view and its formatter, format.h:4606-4652, with formatter<T>, core.h:3037-3067 and
    format.h:4899-4914, for the type of the elements. *)
Record join : Type := Join { j_type : ty; j_elems : list scalar; j_sep : list Z }.
Definition join_custom {C} (E : env) (A : args C) (j : join) (s : list Z) (begin : nat) (next : Z) (out : list Z) : res (nat * Z * list Z) :=
  let* (begin, sp, next) := parse_format_specs s begin (j_type j) next in
  let* _ := match j_type j with TChar => check_char_specs sp | _ => Ok true end in
  let* out := for_up (length (j_elems j)) 0 (fun i out =>
    let* v := get (j_elems j) i in
    let* w := handle_dynamic_spec A (width sp) (width_ref sp) in
    let* p := handle_dynamic_spec A (precision sp) (precision_ref sp) in
    write_value E (if decide (i = 0%nat) then out else out ++ j_sep j) v (set_precision (set_width sp w) p)) out in
  Ok (begin, next, out).

(** The formatters of Array, ArrVec, Vector, Vcb and Vcq, format.hpp:57-136: the same for each of them.
    [parse] accepts no specs; [format] formats the join of the elements. *)
Inductive custom_value : Type := CJoin (j : join) | CSeq (t : ty) (elems : list scalar).
Definition seq_custom (E : env) (A : args custom_value) (c : custom_value) (s : list Z) (begin : nat) (next : Z) (out : list Z) : res (nat * Z * list Z) :=
  match c with
  | CJoin j => join_custom E A j s begin next out
  | CSeq t elems =>
      let* out := vformat_to join_custom E (Args [ACustom (Join t elems [44; 32])] []) [91; 123; 125; 93] out in
      Ok (begin, next, out)
  end.

(** vformat and efp::format, format-inl.h:1439-1445, format.hpp:18-21. *)
Definition vformat (E : env) (A : args custom_value) (s : list Z) : res (list Z) := vformat_to seq_custom E A s [].
