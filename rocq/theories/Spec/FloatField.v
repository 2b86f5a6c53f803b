(** The text of a floating-point number in a format field. Independent of the model. *)
From Coq Require Import ZArith List QArith.
From stdpp Require Import prelude.
From Verif Require Import Spec.FormatSpec Spec.FieldSpec Spec.FloatSpec Spec.FloatText Spec.FloatRound.
Local Open Scope Z_scope.

(** [m / 10^p] with [p] decimals; the point is there if decimals are, or if it is asked for. *)
Definition decimals_text (point : bool) (p m : Z) (s : list Z) : Prop :=
  exists ip fp, numeral 10 false (m / 10 ^ p) (digit_text ip) /\
    all_digits fp /\ Z.of_nat (length fp) = p /\ FormatSpec.number 10 fp = m mod 10 ^ p /\
    s = digit_text ip ++ (if decide (0 < p \/ point = true) then [46] else []) ++ digit_text fp.

(** [q] is the positive number [v] rounded to [n] significant digits. *)
Definition rounded_to (v : Q) (n : Z) (q : Q) : Prop :=
  exists x m, (Qpower (inject_Z 10) x <= v)%Q /\ (v < Qpower (inject_Z 10) (x + 1))%Q /\
    nearest_even (v * Qpower (inject_Z 10) (n - 1 - x)) m /\ (q == FloatSpec.decimal m (x + 1 - n))%Q.

(** The digits [ds] of [m * 10^j], the first of which stands for [10^x]: in fixed point if [-4 <= x < n], else with an
    exponent. *)
Definition precise_text (upper point : bool) (n : Z) (ds : list Z) (j : Z) (s : list Z) : Prop :=
  if decide (-4 <= Z.of_nat (length ds) + j - 1 < n) then s = fixed_text point 0 ds j
  else scientific_text upper point 0 ds j s.

(** A sign and a text in a field of [w] places: zeros that are asked for come after the sign. *)
Definition field_sign (f : field) (neg : bool) : list Z := if neg then [45] else plus_text f.
Definition number_in_field (f : field) (w : Z) (neg : bool) (text : list Z) : list Z :=
  let sg := field_sign f neg in
  if zero_padded f then
    sg ++ in_field PlRight [48] (w - Z.of_nat (length sg)) (Z.of_nat (length text)) text
  else in_field (place PlRight f) (fill_text f) w (Z.of_nat (length (sg ++ text))) (sg ++ text).
(** What is no number is not filled with zeros, and without an alignment it is on the left, unless zeros are asked for. *)
Definition nonfinite_in_field (f : field) (w : Z) (neg : bool) (text : list Z) : list Z :=
  let t := field_sign f neg ++ text in
  in_field (place PlLeft f) (if decide (fill_text f = [48]) then [32] else fill_text f) w (Z.of_nat (length t)) t.

(** ** In base 16 *)
(** [n / 16^q * 2^x], with [q] digits after the point; the point is there if digits follow it or if it is asked for. *)
Definition hex_text (upper point : bool) (q n x : Z) (s : list Z) : Prop :=
  exists ip fp ex, numeral 16 upper (n / 16 ^ q) ip /\
    Forall (fun d => 0 <= d < 16) fp /\ Z.of_nat (length fp) = q /\ FormatSpec.number 16 fp = n mod 16 ^ q /\
    numeral 10 false (Z.abs x) ex /\
    s = [48; if upper then 88 else 120] ++ ip ++ (if decide (0 < q \/ point = true) then [46] else [])
        ++ (digit_char upper <$> fp) ++ [if upper then 80 else 112; if decide (x < 0) then 45 else 43] ++ ex.
(** The power of two that [v] is written with: the one that leaves 1 before the point, but not below that of the least
    double that uses all the bits. *)
Definition binary_exponent (v : Q) (x : Z) : Prop :=
  (v < Qpower (inject_Z 2) (x + 1))%Q /\ ((Qpower (inject_Z 2) x <= v)%Q /\ -1022 <= x \/ (v < Qpower (inject_Z 2) x)%Q /\ x = -1022).
(** [n] is the integer nearest to [v], and of two nearest ones the larger. *)
Definition nearest_up (v : Q) (n : Z) : Prop := (inject_Z n - (1 # 2) <= v)%Q /\ (v < inject_Z n + (1 # 2))%Q.

(** ** Doubles and floats *)
(** A double is given by its 64 bits, and a float by its 32 bits: the top bit is its sign and the others are its
    magnitude. The magnitudes from that of infinity on are no numbers. *)
Definition ieee_format (double : bool) : FloatSpec.format := if double then binary64 else binary32.
Definition float_bits (double : bool) : Z := if double then 64 else 32.
Definition float_negative (double : bool) (bits : Z) : bool := 2 ^ (float_bits double - 1) <=? bits.
Definition float_magnitude (double : bool) (bits : Z) : Z := bits mod 2 ^ (float_bits double - 1).
Definition float_infinite (double : bool) : Z := if double then inf64 else inf32.
Definition float_value (double : bool) (bits : Z) : Q := value (of_bits (ieee_format double) (float_magnitude double bits)).
(** The precisions that can be had: with e or E all but the largest; with f or F those with which the digits before and
    after the point are no more than an int counts. *)
Definition float_fits (f : field) (p : option Z) (double : bool) (bits : Z) : Prop :=
  float_magnitude double bits < float_infinite double ->
  match f_type f with
  | Some (AsFloat StScientific _) => p <> Some int_max
  | Some (AsFloat StFixed _) => forall x, 0 <= x ->
      (Qpower (inject_Z 10) x <= float_value double bits)%Q -> (float_value double bits < Qpower (inject_Z 10) (x + 1))%Q ->
      default 6 p + x + 1 <= int_max
  | _ => True
  end.

(** ** The text in a field *)
(** With g or G: [P] significant digits, of which zeros at the end are left out unless # asks for them. Of zero there is the
    digit 0. (With # and more than 767 digits only the value is said of the numbers from [10^-4] on and below 1.) *)
Definition general_shows (upper alternate : bool) (P : Z) (v : Q) (text : list Z) : Prop :=
  ((v == 0)%Q -> text = [48] ++ (if alternate then [46] ++ zeros (P - 1) else [])) /\
  ((0 < v)%Q -> alternate = false ->
    exists ds m j, numeral 10 false m (digit_text ds) /\ m mod 10 <> 0 /\ rounded_to v P (FloatSpec.decimal m j) /\ precise_text upper false P ds j text) /\
  ((0 < v)%Q -> alternate = true ->
    exists ds m j, Z.of_nat (length ds) = P /\ numeral 10 false m (digit_text ds) /\ rounded_to v P (FloatSpec.decimal m j) /\
      (P <= 767 \/ (1 <= v)%Q \/ (v < Qpower (inject_Z 10) (-4))%Q -> precise_text upper true P ds j text) /\
      exists n e, number_text text n e /\ (FloatSpec.decimal n e == FloatSpec.decimal m j)%Q).
(** With e or E: a digit, a point and [P] digits if there are any or # asks for it, and an exponent. *)
Definition scientific_shows (upper alternate : bool) (P : Z) (v : Q) (text : list Z) : Prop :=
  ((v == 0)%Q -> text = [48] ++ (if decide (0 < P \/ alternate = true) then [46] else []) ++ zeros P ++ [if upper then 69 else 101; 43; 48; 48]) /\
  ((0 < v)%Q -> exists ds m j, Z.of_nat (length ds) = P + 1 /\ numeral 10 false m (digit_text ds) /\
    rounded_to v (P + 1) (FloatSpec.decimal m j) /\ scientific_text upper alternate 0 ds j text).
(** With f or F: [n / 10^P] for the integer [n] nearest to [v * 10^P]. With up to 767 digits they are all there; in any case
    the text stands for that number. *)
Definition fixed_shows (alternate : bool) (P : Z) (v : Q) (text : list Z) : Prop :=
  exists n, nearest_even (v * Qpower (inject_Z 10) P) n /\
    ((v < Qpower (inject_Z 10) (767 - P))%Q -> decimals_text alternate P n text) /\
    exists n' e, number_text text n' e /\ (FloatSpec.decimal n' e == FloatSpec.decimal n (- P))%Q.
(** With a or A: in base 16, exactly, or with a precision the nearest number with so many digits. *)
Definition hex_shows (upper alternate : bool) (p : option Z) (v : Q) (text : list Z) : Prop :=
  exists q n x, binary_exponent v x /\ hex_text upper alternate q n x text /\
    match p with
    | Some p => q = p /\ nearest_up (v * Qpower (inject_Z 2) (4 * q - x)) n
    | None => 0 <= q /\ (v * Qpower (inject_Z 2) (4 * q - x) == inject_Z n)%Q /\ (q = 0 \/ n mod 16 <> 0)
    end.
(** Without a letter and a precision: the shortest digits that are read back as the number. *)
Definition shortest_shows (alternate : bool) {F} (x : FloatSpec.number F) (text : list Z) : Prop :=
  ((value x == 0)%Q -> text = [48] ++ (if alternate then [46] else [])) /\
  ((0 < value x)%Q -> exists s j ds, shortest x s j /\ numeral 10 false s (digit_text ds) /\ precise_text false alternate 16 ds j text).
(** The text of a number that is not negative, with a letter and a precision. *)
Definition magnitude_shows (f : field) (p : option Z) (double : bool) (bits : Z) (text : list Z) : Prop :=
  let v := float_value double bits in
  match f_type f, p with
  | Some (AsFloat StFixed _), _ => fixed_shows (f_alternate f) (default 6 p) v text
  | Some (AsFloat StScientific u), _ => scientific_shows u (f_alternate f) (default 6 p) v text
  | Some (AsFloat StGeneral u), _ => general_shows u (f_alternate f) (Z.max 1 (default 6 p)) v text
  | Some (AsFloat StHex u), _ => hex_shows u (f_alternate f) p v text
  | _, Some p => general_shows false (f_alternate f) (Z.max 1 p) v text
  | _, None => shortest_shows (f_alternate f) (of_bits (ieee_format double) (float_magnitude double bits)) text
  end.
Definition float_upper (f : field) : bool := match f_type f with Some (AsFloat _ u) => u | _ => false end.
(** In the format of a locale: the digits before the point are grouped, and the point is that of the locale. *)
Definition localized_text (L : locale) (point : Z) (text text' : list Z) : Prop :=
  exists ip rest ip', text = digit_text ip ++ rest /\ all_digits ip /\ (forall c, head rest = Some c -> ~ 48 <= c <= 57) /\
    grouped (l_sep L) (l_groups L) (digit_text ip) ip' /\ text' = ip' ++ (match rest with 46 :: r => point :: r | _ => rest end).
Definition float_local (f : field) : bool := f_local f && match f_type f with Some (AsFloat StHex _) => false | _ => true end.
(** The text of a double or a float in a field of [w] places. With a and A the locale does not matter. *)
Definition float_shows (L : locale) (point : Z) (f : field) (w : Z) (p : option Z) (double : bool) (bits : Z) (text : list Z) : Prop :=
  let m := float_magnitude double bits in
  if decide (m < float_infinite double) then
    exists t t', magnitude_shows f p double bits t /\ (if float_local f then localized_text L point t t' else t' = t) /\
      text = number_in_field f w (float_negative double bits) t'
  else text = nonfinite_in_field f w (float_negative double bits)
    (if decide (m = float_infinite double) then (if float_upper f then [73; 78; 70] else [105; 110; 102])
     else (if float_upper f then [78; 65; 78] else [110; 97; 110])).
