(** Printing floating-point numbers. *)
From Coq Require Import QArith.
From Verif Require Import Base.Cpp Model.Dragonbox Spec.FloatSpec Proofs.DragonboxProofs.
Local Open Scope Z_scope.

(** C124. The decimal that a double or a float is printed with is read back as that same number, no decimal with
    fewer digits is, and among those with as many digits none is nearer. *)
Theorem C124_double br : finite_bits binary64 br ->
  exists s j, to_decimal_double br = Ok (s, j) /\ shortest (of_bits binary64 br) s j.
Proof. apply to_decimal_double_shortest. Qed.
Theorem C124_float br : finite_bits binary32 br ->
  exists s j, to_decimal_float br = Ok (s, j) /\ shortest (of_bits binary32 br) s j.
Proof. apply to_decimal_float_shortest. Qed.
(** The bits stand for numbers that exist in the format. *)
Theorem C124_bits br : (finite_bits binary64 br -> valid (of_bits binary64 br)) /\
  (finite_bits binary32 br -> valid (of_bits binary32 br)).
Proof. split; [apply to_decimal_double_shortest|apply to_decimal_float_shortest]. Qed.
Print Assumptions C124_double.
Print Assumptions C124_float.
Print Assumptions C124_bits.

(** One tenth, the least and the largest double, and 2^-1022 where the gap below is as wide as the gap above. *)
Example C124_tenth : finite_bits binary64 0x3fb999999999999a /\ to_decimal_double 0x3fb999999999999a = Ok (1, -1).
Proof. vm_compute. done. Qed.
Example C124_least : finite_bits binary64 1 /\ to_decimal_double 1 = Ok (5, -324).
Proof. vm_compute. done. Qed.
Example C124_largest : finite_bits binary64 0x7fefffffffffffff /\
  to_decimal_double 0x7fefffffffffffff = Ok (17976931348623157, 292).
Proof. vm_compute. done. Qed.
Example C124_normal : finite_bits binary64 0x10000000000000 /\
  to_decimal_double 0x10000000000000 = Ok (22250738585072014, -324).
Proof. vm_compute. done. Qed.
Example C124_third : finite_bits binary32 0x3eaaaaab /\ to_decimal_float 0x3eaaaaab = Ok (33333334, -8).
Proof. vm_compute. done. Qed.
(** What the bits of 1.5 stand for. *)
Example C124_value : (value (of_bits binary64 0x3ff8000000000000) == 3 # 2)%Q.
Proof. vm_compute. done. Qed.
Example C124_zero : to_decimal_double 0 = Ok (0, 0) /\ to_decimal_float 0 = Ok (0, 0).
Proof. vm_compute. done. Qed.

(** C125. Different numbers are printed with different decimals. *)
Theorem C125_double a b s j s' j' : finite_bits binary64 a -> finite_bits binary64 b ->
  to_decimal_double a = Ok (s, j) -> to_decimal_double b = Ok (s', j') -> (decimal s j == decimal s' j')%Q -> a = b.
Proof.
  intros Ha Hb Hra Hrb Heq.
  destruct (to_decimal_double_shortest a Ha) as (Hva & s1 & j1 & H1 & Hs1).
  destruct (to_decimal_double_shortest b Hb) as (Hvb & s2 & j2 & H2 & Hs2).
  rewrite Hra in H1. rewrite Hrb in H2. injection H1 as <- <-. injection H2 as <- <-.
  by apply (shortest_apart binary64 a b s j s' j').
Qed.
Theorem C125_float a b s j s' j' : finite_bits binary32 a -> finite_bits binary32 b ->
  to_decimal_float a = Ok (s, j) -> to_decimal_float b = Ok (s', j') -> (decimal s j == decimal s' j')%Q -> a = b.
Proof.
  intros Ha Hb Hra Hrb Heq.
  destruct (to_decimal_float_shortest a Ha) as (Hva & s1 & j1 & H1 & Hs1).
  destruct (to_decimal_float_shortest b Hb) as (Hvb & s2 & j2 & H2 & Hs2).
  rewrite Hra in H1. rewrite Hrb in H2. injection H1 as <- <-. injection H2 as <- <-.
  by apply (shortest_apart binary32 a b s j s' j').
Qed.
Print Assumptions C125_double.
Print Assumptions C125_float.
Example C125_neighbours : to_decimal_double 0x3fb999999999999a = Ok (1, -1) /\
  to_decimal_double 0x3fb999999999999b = Ok (10000000000000002, -17).
Proof. vm_compute. done. Qed.
