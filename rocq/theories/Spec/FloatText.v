(** Numbers written in decimal, and how a decimal is laid out as text. Chars are their codes; nothing here mentions
    the code. *)
From Coq Require Import ZArith List.
From stdpp Require Import prelude.
From Verif Require Import Spec.FormatSpec.
Local Open Scope Z_scope.

(** The chars of digits. *)
Definition digit_text (ds : list Z) : list Z := digit_char false <$> ds.
Definition all_digits (ds : list Z) : Prop := Forall (fun d => 0 <= d < 10) ds.
Definition zeros (n : Z) : list Z := replicate (Z.to_nat n) 48.

(** ** Reading *)
(** [mantissa_text s n e]: [s] is digits, perhaps with a point among or after them, and stands for [n * 10^e]. *)
Inductive mantissa_text : list Z -> Z -> Z -> Prop :=
| Whole ds : ds <> [] -> all_digits ds -> mantissa_text (digit_text ds) (number 10 ds) 0
| Pointed ip fp : ip <> [] -> all_digits ip -> all_digits fp ->
    mantissa_text (digit_text ip ++ [46] ++ digit_text fp) (number 10 (ip ++ fp)) (- Z.of_nat (length fp)).
(** [number_text s n e]: [s] is a mantissa, perhaps followed by e or E, a sign and digits. *)
Inductive number_text : list Z -> Z -> Z -> Prop :=
| Fixed_point s n e : mantissa_text s n e -> number_text s n e
| Scaled_up s n e c ds : mantissa_text s n e -> c = 101 \/ c = 69 -> ds <> [] -> all_digits ds ->
    number_text (s ++ [c; 43] ++ digit_text ds) n (e + number 10 ds)
| Scaled_down s n e c ds : mantissa_text s n e -> c = 101 \/ c = 69 -> ds <> [] -> all_digits ds ->
    number_text (s ++ [c; 45] ++ digit_text ds) n (e - number 10 ds).

(** ** Laying out *)
(** The digits [ds] of a number [n * 10^j] as digits with a point where it belongs. If [point], there is a point
    even if nothing follows it; [k] zeros are added at the end. *)
Definition fixed_text (point : bool) (k : Z) (ds : list Z) (j : Z) : list Z :=
  let p := Z.of_nat (length ds) + j in
  if decide (0 <= j) then digit_text ds ++ zeros j ++ (if point then [46] ++ zeros k else [])
  else if decide (0 < p) then digit_text (take (Z.to_nat p) ds) ++ [46] ++ digit_text (drop (Z.to_nat p) ds) ++ zeros k
  else [48; 46] ++ zeros (- p) ++ digit_text ds ++ zeros k.
(** An exponent: e or E, the sign, and two digits or as many as there are. *)
Definition exponent_text (upper : bool) (x : Z) (s : list Z) : Prop :=
  exists ds, numeral 10 false (Z.abs x) (digit_text ds) /\
    s = [if upper then 69 else 101; if decide (x < 0) then 45 else 43]
        ++ zeros (2 - Z.of_nat (length ds)) ++ digit_text ds.
(** The digits [ds] of a number [n * 10^j] as one digit, the others and [k] zeros after a point, and an exponent. *)
Definition scientific_text (upper point : bool) (k : Z) (ds : list Z) (j : Z) (s : list Z) : Prop :=
  exists ex, exponent_text upper (Z.of_nat (length ds) + j - 1) ex /\
    s = digit_text (take 1 ds) ++ (if decide (length ds = 1%nat /\ point = false) then [] else [46])
        ++ digit_text (drop 1 ds) ++ zeros k ++ ex.
(** The default layout: fixed point for numbers from 10^-4 on and below 10^16, else with an exponent. *)
Definition general_text (ds : list Z) (j : Z) (s : list Z) : Prop :=
  let x := Z.of_nat (length ds) + j - 1 in
  if decide (-4 <= x < 16) then s = fixed_text false 0 ds j else scientific_text false false 0 ds j s.

(** ** Bits *)
(** The magnitude of infinity as a double and as a float, whose top bit is the sign; those above are not numbers. *)
Definition inf64 : Z := 0x7ff0000000000000.
Definition inf32 : Z := 0x7f800000.
