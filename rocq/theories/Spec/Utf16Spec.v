(** UTF-16, as in RFC 2781. Independent of the model. Units are 0 to 65535. *)
From Coq Require Import ZArith List Lia.
From stdpp Require Import prelude.
From Verif Require Import Spec.Utf8Spec.
Local Open Scope Z_scope.

Definition is_unit (u : Z) : Prop := 0 <= u <= 0xFFFF.
(** The units of a code point: the number itself, or a high and a low surrogate with ten bits each. *)
Definition utf16 (cp : Z) : list Z :=
  if decide (cp < 0x10000) then [cp] else [0xD800 + (cp - 0x10000) / 1024; 0xDC00 + (cp - 0x10000) mod 1024].
(** The texts of some code points. *)
Definition text8 (cps : list Z) : list Z := concat (encode <$> cps).
Definition text16 (cps : list Z) : list Z := concat (utf16 <$> cps).

(** Units in pieces: those of a code point, wherever there are such; else one unit, that is no code point. *)
Inductive pieces16 : list Z -> list (option Z) -> Prop :=
| pieces16_nil : pieces16 [] []
| pieces16_valid cp s ps : scalar_value cp -> pieces16 s ps -> pieces16 (utf16 cp ++ s) (Some cp :: ps)
| pieces16_invalid u s ps : (forall cp t, scalar_value cp -> u :: s <> utf16 cp ++ t) -> pieces16 s ps -> pieces16 (u :: s) (None :: ps).
