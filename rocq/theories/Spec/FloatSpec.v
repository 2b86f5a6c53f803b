(** What a binary floating-point number is, and what it means for a decimal to denote it.

    Only the standard library's rationals are used; nothing here mentions the code. *)
From Coq Require Import ZArith QArith Qabs.
Local Open Scope Z_scope.

(** A binary format: [prec] bits of significand, and exponents from [emin] to [emax]. *)
Record format : Type := { prec : Z; emin : Z; emax : Z }.
(** IEEE 754 binary32 and binary64. *)
Definition binary32 : format := {| prec := 24; emin := -149; emax := 104 |}.
Definition binary64 : format := {| prec := 53; emin := -1074; emax := 971 |}.

(** The numbers of a format that are not negative: [f * 2^e]. A significand that does not use all the bits
    occurs with the least exponent only, so every number is written in one way. *)
Record number (F : format) : Type := Number { significand : Z; exponent : Z }.
Arguments Number {F} _ _. Arguments significand {F} _. Arguments exponent {F} _.
Definition valid {F} (x : number F) : Prop :=
  0 <= significand x < 2 ^ prec F /\ emin F <= exponent x <= emax F /\
  (exponent x = emin F \/ 2 ^ (prec F - 1) <= significand x).

Local Open Scope Q_scope.
Definition value {F} (x : number F) : Q := inject_Z (significand x) * Qpower (inject_Z 2) (exponent x).
(** The decimal [s * 10^j]. *)
Definition decimal (s j : Z) : Q := inject_Z s * Qpower (inject_Z 10) j.

(** Reading the real number [d] as a number of the format gives [x]: it is the nearest one, and of two nearest
    ones the one with an even significand. Numbers from half a unit above the largest on are read as infinity. *)
Definition reads_as {F} (d : Q) (x : number F) : Prop :=
  d < inject_Z (2 ^ (prec F + 1) - 1) * Qpower (inject_Z 2) (emax F - 1) /\
  forall y : number F, valid y -> y <> x ->
    Qabs (d - value x) < Qabs (d - value y) \/
    (Qabs (d - value x) == Qabs (d - value y) /\ Z.Even (significand x)).

(** [s * 10^j] is the shortest way to write [x]: it is read as [x]; no decimal with fewer digits is; and among
    those with as many digits it is nearest to [x]. *)
Definition shortest {F} (x : number F) (s j : Z) : Prop :=
  (0 < s)%Z /\ reads_as (decimal s j) x /\
  forall s' j', (0 < s')%Z -> reads_as (decimal s' j') x ->
    (forall d, (0 <= d -> s' < 10 ^ d -> s < 10 ^ d)%Z) /\
    ((forall d, (0 <= d -> s < 10 ^ d -> s' < 10 ^ d)%Z) ->
     Qabs (decimal s j - value x) <= Qabs (decimal s' j' - value x)).

(** The number that the bits of a positive number stand for: a field of [bits - prec] exponent bits above the
    [prec - 1] bits of the fraction. *)
Definition of_bits (F : format) (br : Z) : number F :=
  let fraction := (br mod 2 ^ (prec F - 1))%Z in
  let biased := (br / 2 ^ (prec F - 1))%Z in
  if (biased =? 0)%Z then Number fraction (emin F)
  else Number (2 ^ (prec F - 1) + fraction)%Z (emin F + (biased - 1))%Z.
(** The bits of the positive finite numbers. *)
Definition finite_bits (F : format) (br : Z) : Prop :=
  (0 < br < (emax F - emin F + 2) * 2 ^ (prec F - 1))%Z.
