(** Format fields, such as {0:*^+#012x}: how one is written, and the text a value has in one. The
    syntax is that of fmt. Independent of the model. *)
From Coq Require Import ZArith List Lia.
From stdpp Require Import prelude.
From Verif Require Import Spec.FormatSpec Spec.Utf8Spec Spec.EscapeSpec.
Local Open Scope Z_scope.

(** ** Fields *)

Inductive sign_option : Type := Plus | Minus | Space.
(** How a floating-point number is written: f, e, g or a. *)
Inductive float_style : Type := StFixed | StScientific | StGeneral | StHex.
Inductive type_option : Type := InBase (b : base) | AsChar | AsString | AsDebug | AsFloat (s : float_style) (upper : bool) | AsPointer.
(** An argument, by order of use, by its index or by its name. *)
Inductive which : Type := NextArg | ArgAt (i : Z) | Named (name : list Z).
(** A width or a precision: none, a number, or an argument. A precision may also be a point with nothing after it,
    which says nothing but that there might be one. *)
Inductive count : Type := NoCount | Number (n : Z) | OfArg (w : which) | Bare.
Record field : Type := Field {
  f_fill : list Z;               (* the chars of the fill; none: a space *)
  f_align : option placement; f_sign : option sign_option; f_alternate : bool; f_zero : bool;
  f_width : count; f_precision : count; f_local : bool; f_type : option type_option }.

(** ** How a field is written *)

Definition align_text (p : option placement) : list Z :=
  match p with None => [] | Some PlLeft => [60] | Some PlRight => [62] | Some PlCenter => [94] end.
Definition sign_option_text (s : option sign_option) : list Z :=
  match s with None => [] | Some Plus => [43] | Some Minus => [45] | Some Space => [32] end.
Definition type_text (t : option type_option) : list Z :=
  match t with
  | None => []
  | Some (InBase Dec) => [100]
  | Some (InBase Oct) => [111]
  | Some (InBase (Hex u)) => [if u then 88 else 120]
  | Some (InBase (Bin u)) => [if u then 66 else 98]
  | Some AsChar => [99]
  | Some AsString => [115]
  | Some AsDebug => [63]
  | Some (AsFloat StFixed u) => [if u then 70 else 102]
  | Some (AsFloat StScientific u) => [if u then 69 else 101]
  | Some (AsFloat StGeneral u) => [if u then 71 else 103]
  | Some (AsFloat StHex u) => [if u then 65 else 97]
  | Some AsPointer => [112]
  end.
(** An index that is too large for int stands for the largest int. *)
Definition int_max : Z := 2147483647.
Inductive which_text : which -> list Z -> Prop :=
| which_next : which_text NextArg []
| which_at i s : numeral 10 false i s -> which_text (ArgAt i) s
| which_large i s : numeral 10 false i s -> int_max < i -> which_text (ArgAt int_max) s
| which_named name : which_text (Named name) name.
Inductive count_text : count -> list Z -> Prop :=
| count_none : count_text NoCount []
| count_number n s : numeral 10 false n s -> count_text (Number n) s
| count_arg w s : which_text w s -> count_text (OfArg w) ([123] ++ s ++ [125]).
Definition flag_text (b : bool) (c : Z) : list Z := if b then [c] else [].
(** The number of a precision may start with zeros, but has ten digits at most. *)
Inductive precision_text : count -> list Z -> Prop :=
| precision_bare : precision_text Bare [46]
| precision_zeros n ds : Forall (fun d => 0 <= d < 10) ds -> ds <> [] -> (length ds <= 10)%nat -> number 10 ds = n ->
    precision_text (Number n) (46 :: (digit_char false <$> ds))
| precision_none : precision_text NoCount []
| precision_some c s : c <> NoCount -> count_text c s -> precision_text c (46 :: s).
Inductive field_text (f : field) : list Z -> Prop :=
| field_text_intro w p : count_text (f_width f) w -> precision_text (f_precision f) p ->
    field_text f (f_fill f ++ align_text (f_align f) ++ sign_option_text (f_sign f) ++ flag_text (f_alternate f) 35
                  ++ flag_text (f_zero f) 48 ++ w ++ p ++ flag_text (f_local f) 76 ++ type_text (f_type f)).

(** A fill is one code point, not a brace, and comes with an alignment: as many bytes as the first of them says, though
    they need not be UTF-8. Numbers are those of int; a width is not 0. *)
Definition code_point_bytes (first : Z) : nat :=
  if decide (192 <= first < 224) then 2 else if decide (224 <= first < 240) then 3 else if decide (240 <= first < 248) then 4 else 1.
(** A name is of letters, digits and _, and does not start with a digit. *)
Definition letter (c : Z) : Prop := 97 <= c <= 122 \/ 65 <= c <= 90 \/ c = 95.
Definition name_ok (n : list Z) : Prop :=
  match n with [] => False | c :: n => letter c /\ Forall (fun c => letter c \/ 48 <= c <= 57) n end.
Definition which_ok (w : which) : Prop := match w with NextArg => True | ArgAt i => 0 <= i <= int_max | Named n => name_ok n end.
Definition count_ok (least : Z) (c : count) : Prop :=
  match c with NoCount => True | Number n => least <= n <= int_max | OfArg w => which_ok w | Bare => True end.
Definition field_ok (f : field) : Prop :=
  (f_fill f = [] \/ f_align f <> None /\ exists b bs, f_fill f = b :: bs /\ 0 <= b < 256 /\ b <> 123 /\ b <> 125 /\ length (b :: bs) = code_point_bytes b) /\
  count_ok 1 (f_width f) /\ count_ok 0 (f_precision f) /\ (f_precision f = Bare -> f_local f = true \/ f_type f <> None).

(** ** What a type admits *)

Inductive kind : Type := KInt | KUnsigned | KBool | KChar | KString | KFloat | KCstring | KPointer.
Definition arithmetic (k : kind) : Prop := match k with KString | KCstring | KPointer => False | _ => True end.
Definition admits_type (k : kind) (t : option type_option) : Prop :=
  match t, k with
  | None, _ => True
  | Some (InBase _ | AsChar), (KString | KFloat | KCstring | KPointer) => False
  | Some (InBase _ | AsChar), _ => True
  | Some AsString, (KBool | KString | KCstring) => True
  | Some AsString, _ => False
  | Some AsDebug, (KChar | KString | KCstring) => True
  | Some AsDebug, _ => False
  | Some (AsFloat _ _), KFloat => True
  | Some (AsFloat _ _), _ => False
  | Some AsPointer, (KCstring | KPointer) => True
  | Some AsPointer, _ => False
  end.
(** Zeros are asked for, and no alignment. *)
Definition zero_padded (f : field) : bool := f_zero f && match f_align f with None => true | _ => false end.
Definition as_char (t : option type_option) : Prop := match t with None | Some AsChar | Some AsDebug => True | _ => False end.
Definition admits (k : kind) (f : field) : Prop :=
  admits_type k (f_type f) /\
  (f_sign f <> None -> k = KInt \/ k = KFloat) /\
  (f_alternate f = true -> arithmetic k) /\ (f_zero f = true -> arithmetic k) /\ (f_local f = true -> arithmetic k) /\
  (f_precision f <> NoCount -> k = KString \/ k = KCstring \/ k = KFloat) /\
  (k = KChar -> as_char (f_type f) -> f_alternate f = false /\ zero_padded f = false).

(** ** The text of a value: in a field of at least [w] places, with a precision [p] *)

Definition place (p : placement) (f : field) : placement :=
  match f_align f with Some p => p | None => if f_zero f then PlRight else p end.
Definition fill_text (f : field) : list Z :=
  if zero_padded f then [48] else match f_fill f with [] => [32] | s => s end.
Definition plus_text (f : field) : list Z := match f_sign f with Some Plus => [43] | Some Space => [32] | _ => [] end.
Definition char_shows (f : field) (w : Z) (c : Z) (text : list Z) : Prop :=
  text = in_field (place PlLeft f) (fill_text f) w 1 [c].

(** The separator and the sizes of groups of digits. *)
Record locale : Type := Locale { l_sep : list Z; l_groups : list Z }.

(** Integers: in decimal with separators, if local; else with zeros, or padded. *)
Definition number_shows (L : locale) (f : field) (w : Z) (b : base) (z : Z) (text : list Z) : Prop :=
  if f_local f then
    exists digits body, numeral 10 false (Z.abs z) digits /\ grouped (l_sep L) (l_groups L) digits body /\
    let t := sign_text (plus_text f) z ++ body in
    text = in_field (place PlRight f) (fill_text f) w (Z.of_nat (length t)) t
  else if zero_padded f then
    exists zeros, int_text (plus_text f) (f_alternate f) b zeros z text /\
    zeros = Z.max 0 (w - (Z.of_nat (length text) - zeros))
  else
    exists t, int_text (plus_text f) (f_alternate f) b 0 z t /\
    text = in_field (place PlRight f) (fill_text f) w (Z.of_nat (length t)) t.
Definition int_shows (L : locale) (f : field) (w : Z) (z : Z) (text : list Z) : Prop :=
  match f_type f with
  | None => number_shows L f w Dec z text
  | Some (InBase b) => number_shows L f w b z text
  | Some AsChar => if f_local f then number_shows L f w Dec z text else char_shows f w (Z.abs z mod 256) text
  | _ => False
  end.
Definition bool_shows (L : locale) (f : field) (w : Z) (b : bool) (text : list Z) : Prop :=
  match f_type f with
  | None | Some AsString =>
      let t := if b then [116; 114; 117; 101] else [102; 97; 108; 115; 101] in
      text = in_field (place PlLeft f) (fill_text f) w (Z.of_nat (length t)) t
  | _ => int_shows L f w (if b then 1 else 0) text
  end.
(** [debug] is the debug text of the char. It counts as one place. *)
Definition char_value_shows (L : locale) (debug : list Z) (f : field) (w : Z) (c : Z) (text : list Z) : Prop :=
  match f_type f with
  | None | Some AsChar => char_shows f w c text
  | Some AsDebug => text = in_field (place PlLeft f) (fill_text f) w 1 debug
  | _ => int_shows L f w c text
  end.
(** Strings: their first [p] code points; [cols] is the number of columns of a text. *)
Definition string_shows (cols : list Z -> Z -> Prop) (debug : list Z) (f : field) (w : Z) (p : option Z) (s text : list Z) : Prop :=
  match f_type f with
  | Some AsDebug => text = in_field (place PlLeft f) (fill_text f) w (Z.of_nat (length debug)) debug
  | _ =>
      exists ps c, pieces s ps /\
      let t := concat (map snd (match p with Some n => take (Z.to_nat n) ps | None => ps end)) in
      cols t c /\ text = in_field (place PlLeft f) (fill_text f) w c t
  end.
(** Pointers: the address in hexadecimal. *)
Definition pointer_shows (f : field) (w : Z) (addr : Z) (text : list Z) : Prop :=
  exists digits, numeral 16 false addr digits /\
  let t := [48; 120] ++ digits in
  text = in_field (place PlRight f) (fill_text f) w (Z.of_nat (length t)) t.
(** C strings: their address, if it is asked for; else as strings. *)
Definition cstring_shows (cols : list Z -> Z -> Prop) (debug : list Z) (f : field) (w : Z) (p : option Z) (addr : Z) (s text : list Z) : Prop :=
  match f_type f with Some AsPointer => pointer_shows f w addr text | _ => string_shows cols debug f w p s text end.
