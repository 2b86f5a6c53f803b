(** What the numbers of an IEEE 754 format stand for, independently of the code. *)
From Coq Require Import Reals.
From Flocq Require Import Core BinarySingleNaN.
From Verif Require Import Base.Cpp.
Local Open Scope R_scope.

Section ieee.
Context {prec emax : Z}.
Notation flt := (binary_float prec emax).

(** The real number a finite number stands for (0 for infinities and NaNs). *)
Definition real (x : flt) : R := B2R x.
Definition finite (x : flt) : Prop := is_finite x = true.
Definition all_finite (xs : list flt) : Prop := Forall finite xs.
Definition not_a_number (x : flt) : Prop := is_nan x = true.
Definition whole_number (x : flt) : Prop := finite x /\ exists z : Z, real x = IZR z.

(** The order of IEEE 754: no NaN is related to anything. *)
Definition at_most (x y : flt) : Prop := Bleb x y = true.
(** Zero or more, possibly infinite, not a NaN. *)
Definition non_negative (x : flt) : Prop := at_most (B754_zero false) x.
(** The same sequences, element by element. *)
Definition all_at_most (xs ys : list flt) : Prop :=
  Forall2 (fun x y => finite x /\ finite y /\ at_most x y) xs ys.
End ieee.

(** Sums of real numbers. *)
Definition total (rs : list R) : R := fold_right Rplus 0 rs.

(** The relative error of one rounding, 2^-prec, and half the least positive number, the error of a
    rounding near zero. *)
Definition unit_error (prec : Z) : R := bpow radix2 (- prec).
Definition least_error (prec emax : Z) : R := / 2 * bpow radix2 (3 - emax - prec).

(** The number nearest to a real number, in the format without an upper limit of exponents. *)
Definition nearest (prec emax : Z) (r : R) : R :=
  round radix2 (FLT_exp (3 - emax - prec) prec) ZnearestE r.

(** The largest finite number. *)
Definition largest (prec emax : Z) : R := bpow radix2 emax - bpow radix2 (emax - prec).

(** The least positive normalised number. *)
Definition least_normal (emax : Z) : R := bpow radix2 (2 - emax).

(** The relative error of a length as a number of the format: none up to 2^prec. *)
Definition count_error (prec : Z) (k : nat) : R := if decide (Z.of_nat k <= 2 ^ prec)%Z then 0 else unit_error prec.

(** Exact means, and sums of products of deviations from given centres. *)
Definition exact_mean {prec emax} (xs : list (binary_float prec emax)) : R := total (map real xs) / INR (length xs).
Definition products {prec emax} (a b : R) (xs ys : list (binary_float prec emax)) : list R :=
  zip_with (fun x y => (real x - a) * (real y - b)) xs ys.
