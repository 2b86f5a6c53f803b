(** What the text of a number, of a padded field and of a sequence is. Independent of the model. Chars
    are their codes. *)
From Coq Require Import ZArith List Lia.
From stdpp Require Import prelude.
Local Open Scope Z_scope.

(** The char of a digit: 0 to 9, then letters. *)
Definition digit_char (upper : bool) (d : Z) : Z := if decide (d < 10) then 48 + d else (if upper then 55 else 87) + d.
(** The number with the digits [ds] in base [b]. *)
Definition number (b : Z) (ds : list Z) : Z := fold_left (fun n d => n * b + d) ds 0.
(** [s] is [n] written in base [b]: digits of the base, the value is [n], no needless zero. *)
Definition numeral (b : Z) (upper : bool) (n : Z) (s : list Z) : Prop :=
  exists ds, s = digit_char upper <$> ds /\ Forall (fun d => 0 <= d < b) ds /\ number b ds = n
             /\ ds <> [] /\ (head ds = Some 0 -> ds = [0]).
(** [s] is the integer [z] in base 10: a minus sign if it is negative, and the digits. *)
Definition decimal (z : Z) (s : list Z) : Prop :=
  exists digits, numeral 10 false (Z.abs z) digits /\ s = (if decide (z < 0) then [45] else []) ++ digits.

(** ** Fields *)

(** [text] among [n] copies of [f]. *)
Inductive placement : Type := PlLeft | PlRight | PlCenter.
Definition copies (n : Z) (f : list Z) : list Z := concat (replicate (Z.to_nat n) f).
Definition padded (p : placement) (f : list Z) (n : Z) (text : list Z) : list Z :=
  match p with
  | PlLeft => text ++ copies n f
  | PlRight => copies n f ++ text
  | PlCenter => copies (n / 2) f ++ text ++ copies (n - n / 2) f
  end.
(** [text], which takes [w] places, in a field of at least [width] places. *)
Definition in_field (p : placement) (f : list Z) (width w : Z) (text : list Z) : list Z :=
  padded p f (Z.max 0 (width - w)) text.

(** ** Integers *)

Inductive base : Type := Dec | Oct | Hex (upper : bool) | Bin (upper : bool).
Definition radix (b : base) : Z := match b with Dec => 10 | Oct => 8 | Hex _ => 16 | Bin _ => 2 end.
Definition big (b : base) : bool := match b with Hex u => u | _ => false end.
(** The prefix of the alternate form: 0x, 0X, 0b, 0B; 0 for octal numbers but 0. *)
Definition base_prefix (b : base) (z : Z) : list Z :=
  match b with
  | Dec => []
  | Oct => if decide (z = 0) then [] else [48]
  | Hex u => [48; if u then 88 else 120]
  | Bin u => [48; if u then 66 else 98]
  end.
(** The sign of a number that is not negative: none, plus or space. *)
Definition sign_text (plus : list Z) (z : Z) : list Z := if decide (z < 0) then [45] else plus.
(** [text] is the integer [z]: sign, prefix, [zeros] zeros, digits. *)
Definition int_text (plus : list Z) (alternate : bool) (b : base) (zeros : Z) (z : Z) (text : list Z) : Prop :=
  exists digits, numeral (radix b) (big b) (Z.abs z) digits /\
  text = sign_text plus z ++ (if alternate then base_prefix b z else []) ++ copies zeros [48] ++ digits.

(** ** Digit groups *)

(** A group ends [k] digits from the right: the sizes of the groups from the right are [gs], the last of
    them again and again; a size that is not positive, or 127 (CHAR_MAX), ends the grouping. *)
Inductive group_end : list Z -> Z -> Prop :=
| group_first g gs : 0 < g -> g <> 127 -> group_end (g :: gs) g
| group_next g g' gs k : 0 < g -> g <> 127 -> group_end (g' :: gs) k -> group_end (g :: g' :: gs) (g + k)
| group_again g k : 0 < g -> g <> 127 -> group_end [g] k -> group_end [g] (g + k).
(** [text] is the digits [ds] with [sep] between the groups. *)
Inductive grouped (sep : list Z) (gs : list Z) : list Z -> list Z -> Prop :=
| grouped_one d : grouped sep gs [d] [d]
| grouped_sep d ds text : ds <> [] -> group_end gs (Z.of_nat (length ds)) -> grouped sep gs ds text ->
    grouped sep gs (d :: ds) (d :: sep ++ text)
| grouped_no_sep d ds text : ds <> [] -> ~ group_end gs (Z.of_nat (length ds)) -> grouped sep gs ds text ->
    grouped sep gs (d :: ds) (d :: text).
