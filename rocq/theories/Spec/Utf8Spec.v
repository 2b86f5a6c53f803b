(** UTF-8, as in RFC 3629. Independent of the model. Bytes are 0 to 255. *)
From Coq Require Import ZArith List Lia.
From stdpp Require Import prelude.
Local Open Scope Z_scope.

(** Code points that are not surrogates. *)
Definition scalar_value (cp : Z) : Prop := 0 <= cp <= 0x10FFFF /\ ~ (0xD800 <= cp <= 0xDFFF).

Definition encode (cp : Z) : list Z :=
  if decide (cp < 128) then [cp]
  else if decide (cp < 2048) then [192 + cp / 64; 128 + cp mod 64]
  else if decide (cp < 65536) then [224 + cp / 4096; 128 + cp / 64 mod 64; 128 + cp mod 64]
  else [240 + cp / 262144; 128 + cp / 4096 mod 64; 128 + cp / 64 mod 64; 128 + cp mod 64].

(** A byte string in pieces: the encoding of a code point, wherever there is one; else one byte. *)
Inductive pieces : list Z -> list (option Z * list Z) -> Prop :=
| pieces_nil : pieces [] []
| pieces_valid cp s ps : scalar_value cp -> pieces s ps -> pieces (encode cp ++ s) ((Some cp, encode cp) :: ps)
| pieces_invalid b s ps :
    (forall cp t, scalar_value cp -> b :: s <> encode cp ++ t) -> pieces s ps -> pieces (b :: s) ((None, [b]) :: ps).

(** The columns of a code point: two in the ranges of wide ones, else one. *)
Definition wide (cp : Z) : Prop :=
  0x1100 <= cp <= 0x115f \/ cp = 0x2329 \/ cp = 0x232a \/ (0x2e80 <= cp <= 0xa4cf /\ cp <> 0x303f)
  \/ 0xac00 <= cp <= 0xd7a3 \/ 0xf900 <= cp <= 0xfaff \/ 0xfe10 <= cp <= 0xfe19 \/ 0xfe30 <= cp <= 0xfe6f
  \/ 0xff00 <= cp <= 0xff60 \/ 0xffe0 <= cp <= 0xffe6 \/ 0x20000 <= cp <= 0x2fffd \/ 0x30000 <= cp <= 0x3fffd
  \/ 0x1f300 <= cp <= 0x1f64f \/ 0x1f900 <= cp <= 0x1f9ff.
Global Instance wide_dec cp : Decision (wide cp).
Proof. unfold wide. apply _. Defined.
(** The columns of a text: those of its code points, and one for each byte that is not part of any. *)
Definition columns (s : list Z) (n : Z) : Prop :=
  exists ps, pieces s ps /\
  n = foldr Z.add 0 ((fun p => match p.1 with Some cp => if decide (wide cp) then 2 else 1 | None => 1 end) <$> ps).
