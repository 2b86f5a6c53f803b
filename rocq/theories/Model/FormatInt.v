(** Model of format_int in /repo/include/efp/fmt/format.h, 4314-4384. Chars are their codes. *)
From Verif Require Import Base.Cpp Model.Numeric Model.FmtInt Model.FormatSpecs.
Local Open Scope Z_scope.

(** buffer_size, 4319: digits10 of unsigned long long, which is 19, and 3. *)
Definition buffer_size : nat := 22.
(** The class, 4315-4322. [fi_object] tells objects apart; str_ is a pointer into the buffer of an object. *)
Record format_int : Type := FormatInt { fi_object : nat; fi_buffer : mem; fi_str : nat * nat }.

(** format_unsigned, 4324-4328, for a value of the unsigned type that is used for the digits; the index it returns. *)
Definition format_unsigned (m : mem) (value : Z) : res (mem * nat) :=
  let* (m, begin, _) := format_decimal m value (buffer_size - 1) in Ok (m, begin).
(** format_signed, 4330-4340. *)
Definition format_signed (m : mem) (w value : Z) : res (mem * nat) :=
  let abs_value := value mod 2 ^ w in
  let negative := value <? 0 in
  let abs_value := if negative then (0 - abs_value) mod 2 ^ w else abs_value in
  let* (m, begin) := format_unsigned m abs_value in
  if negative then put_before m begin [45] else Ok (m, begin).
(** The constructors, 4343-4353. The buffer is not initialised. *)
Definition make_format_int (object : nat) (t : ity) (value : Z) : res format_int :=
  let m : mem := replicate buffer_size None in
  let* (m, begin) := if signed t then format_signed m (uwidth t) value else format_unsigned m (value mod 2 ^ uwidth t) in
  Ok (FormatInt object m (object, begin)).
(** size, 4356-4358: a difference of pointers, that must point into the same array. *)
Definition fi_size (x : format_int) : res nat :=
  if decide (fst (fi_str x) = fi_object x) then Ok (buffer_size - 1 - snd (fi_str x))%nat else UB OutOfBounds.
(** data, 4364-4366, and c_str, 4372-4375, which writes to the buffer. *)
Definition fi_data (x : format_int) : nat * nat := fi_str x.
Definition fi_c_str (x : format_int) : res (format_int * (nat * nat)) :=
  let* m := put (fi_buffer x) (buffer_size - 1) (Some 0) in Ok (FormatInt (fi_object x) m (fi_str x), fi_str x).
(** What a caller reads: [n] chars from a pointer into [x], and those to the end of its buffer. *)
Definition fi_read (x : format_int) (p : nat * nat) (n : nat) : res (list Z) :=
  if decide (fst p = fi_object x /\ snd p + n <= length (fi_buffer x))%nat then read_all (take n (drop (snd p) (fi_buffer x))) else UB OutOfBounds.
Definition fi_rest (x : format_int) (p : nat * nat) : res (list Z) :=
  if decide (fst p = fi_object x) then read_all (drop (snd p) (fi_buffer x)) else UB OutOfBounds.
(** str, 4382-4384. *)
Definition fi_text (x : format_int) : res (list Z) := let* n := fi_size x in fi_read x (fi_str x) n.
(** The implicit copy constructor: it copies the members. *)
Definition fi_copy (object : nat) (x : format_int) : format_int := FormatInt object (fi_buffer x) (fi_str x).
