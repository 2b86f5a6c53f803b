(** Debug text: a string in quotes with escapes. Independent of the model. *)
From Coq Require Import ZArith List Lia.
From stdpp Require Import prelude.
From Verif Require Import Spec.FormatSpec.
Local Open Scope Z_scope.

(** [n] in hexadecimal, with [w] digits. *)
Fixpoint hex (w : nat) (n : Z) : list Z :=
  match w with O => [] | S w => hex w (n / 16) ++ [digit_char false (n mod 16)] end.

(** The escape of a code point: n, r, t, a quote or a backslash after a backslash; or the code in
    hexadecimal after a backslash and x, u or U: two, four or eight digits. *)
Definition escape_cp (cp : Z) : list Z :=
  if decide (cp = 10) then [92; 110]
  else if decide (cp = 13) then [92; 114]
  else if decide (cp = 9) then [92; 116]
  else if decide (cp = 34 \/ cp = 39 \/ cp = 92) then [92; cp]
  else if decide (cp < 256) then [92; 120] ++ hex 2 cp
  else if decide (cp < 65536) then [92; 117] ++ hex 4 cp
  else [92; 85] ++ hex 8 cp.
(** The text of a piece of a string (see Utf8Spec): a printable code point as it is, others escaped, as
    are quotes and backslashes; a byte that is no code point in hexadecimal. *)
Definition escape_piece (printable : Z -> bool) (p : option Z * list Z) : list Z :=
  match p with
  | (None, bs) => concat ((fun b => [92; 120] ++ hex 2 b) <$> bs)
  | (Some cp, bs) =>
      if decide (cp < 32 \/ cp = 127 \/ cp = 34 \/ cp = 92 \/ printable cp = false) then escape_cp cp else bs
  end.
Definition quoted (printable : Z -> bool) (ps : list (option Z * list Z)) : list Z :=
  [34] ++ concat (escape_piece printable <$> ps) ++ [34].
