(** Textbook statistics of lists of real numbers. *)
From Coq Require Import Reals.
From Verif Require Import Base.Cpp.
Local Open Scope R_scope.

Definition Rsum (xs : list R) : R := foldr Rplus 0 xs.
Definition average (xs : list R) : R := Rsum xs / INR (length xs).

(** Sums of squared deviations and of products of deviations from the averages. *)
Definition sq_dev (xs : list R) : R := Rsum (map (fun x => Rsqr (x - average xs)) xs).
Definition cross_dev (xs ys : list R) : R :=
  Rsum (zip_with (fun x y => (x - average xs) * (y - average ys)) xs ys).

(** All elements are equal. *)
Definition constant (xs : list R) : Prop := forall x y, x ∈ xs -> y ∈ xs -> x = y.

(** The sum of the squared distances of the points to a line. *)
Definition residual_ss (slope intercept : R) (xs ys : list R) : R :=
  Rsum (zip_with (fun x y => Rsqr (y - (slope * x + intercept))) xs ys).

(** 0, 1, ..., n - 1. *)
Definition indices (n : nat) : list R := map INR (seq 0 n).

(** The divisor: the number of data, or one less with Bessel's correction; enough data for it, and
    no more than a size_t counts. *)
Definition divisor (bessel : bool) (n : nat) : R := if bessel then INR n - 1 else INR n.
Definition enough (bessel : bool) (n : nat) : Prop :=
  ((if bessel then 2 else 1) <= n)%nat /\ (Z.of_nat n < 2 ^ 64)%Z.

(** The sum of the products of the deviations of the data and of the data [lag] places later. *)
Definition lagged (lag : nat) (xs : list R) : R :=
  Rsum (zip_with (fun x y => (x - average xs) * (y - average xs)) xs (drop lag xs)).
