(** Model of the statistics of /repo/include/efp/scientific.hpp and of sum, max_elem, min_elem,
    max_min, abs, square and is_approx of /repo/include/efp/numeric.hpp in IEEE 754 arithmetic:
    every operation rounds to nearest, ties to even, overflows to an infinity, and may give a NaN.

    The elements of the sequences and the result R have one type, float or double: a binary format of
    [prec] bits with exponents below [emax] (24 and 128 for float, 53 and 1024 for double). The
    operations are those of Flocq, which has one NaN: signs and payloads of NaNs are not modelled.
    Simplifications: expressions are evaluated in the type of their operands (FLT_EVAL_METHOD = 0), no
    product and sum are contracted to one operation, and the rounding mode is the default one.
    Sequences are lists: map of one or more sequences stops with the shortest (C36), foldl is the left
    fold (C38). *)
From Flocq Require Import BinarySingleNaN.
From Verif Require Import Base.Cpp Model.Numeric.
Local Open Scope Z_scope.

Section ieee.
Context (prec emax : Z) {Hprec : FLX.Prec_gt_0 prec} {Hemax : Prec_lt_emax prec emax}.
Notation flt := (binary_float prec emax).

(** ** Operations of the language *)
Definition fadd (x y : flt) : flt := Bplus mode_NE x y.
Definition fsub (x y : flt) : flt := Bminus mode_NE x y.
Definition fmul (x y : flt) : flt := Bmult mode_NE x y.
Definition fdiv (x y : flt) : flt := Bdiv mode_NE x y.
(** std::sqrt, which IEEE 754 defines like the operations above. *)
Definition fsqrt (x : flt) : flt := Bsqrt mode_NE x.
Definition fopp (x : flt) : flt := Bopp x.
(** The comparisons: false if an operand is a NaN. *)
Definition flt_lt (x y : flt) : bool := Bltb x y.
Definition flt_le (x y : flt) : bool := Bleb x y.
(** Conversion of an integer. *)
Definition fof_Z (z : Z) : flt := binary_normalize prec emax Hprec Hemax mode_NE z 0 false.
Definition fzero : flt := B754_zero false.

(** Values of size_t and of length - 1, computed in size_t. *)
Definition fof_size (n : nat) : flt := fof_Z (Z.of_nat n).
Definition fof_size_minus_1 (n : nat) : flt := fof_Z (conv (ITy 64 false) (Z.of_nat n - 1)).

(** NumericLimits::min(), the least positive normalised number, ::max() and ::epsilon(). *)
Definition ftiny : flt := binary_normalize prec emax Hprec Hemax mode_NE 1 (2 - emax) false.
Definition fhuge : flt := Bmax_float.
Definition fepsilon : flt := binary_normalize prec emax Hprec Hemax mode_NE 1 (1 - prec) false.

(** ** Numeric functions *)

(** square, numeric.hpp:8-11; abs, 13-16; is_approx of two numbers of one type, 18-24. *)
Definition fsquare (x : flt) : flt := fmul x x.
Definition fabs (x : flt) : flt := if flt_lt x fzero then fopp x else x.
Definition fis_approx (x y : flt) : bool := flt_le (fabs (fsub x y)) fepsilon.

(** max_elem, min_elem and max_min, numeric.hpp:114-127; sum, 129-132. *)
Definition fmax_elem (xs : list flt) : flt := max_elem flt_lt ftiny xs.
Definition fmin_elem (xs : list flt) : flt := min_elem flt_lt fhuge xs.
Definition fmax_min (xs : list flt) : flt := fsub (fmax_elem xs) (fmin_elem xs).
Definition fsum (xs : list flt) : flt := fold_left fadd xs fzero.

(** ** Statistics *)

(** mean, scientific.hpp:11-14; rms, 16-19. *)
Definition fmean (xs : list flt) : flt := fdiv (fsum xs) (fof_size (length xs)).
Definition frms (xs : list flt) : flt := fsqrt (fmean (map fsquare xs)).

(** sse, 21-28; mse, 30-37; rmse, 39-42; nrmse_mean, 44-47; nrmse_max_min, 49-52. *)
Definition fsquare_error (a b : flt) : flt := fsquare (fsub a b).
Definition fsse (xs ys : list flt) : flt := fsum (zip_with fsquare_error xs ys).
Definition fmse (xs ys : list flt) : flt := fmean (zip_with fsquare_error xs ys).
Definition frmse (xs ys : list flt) : flt := fsqrt (fmse xs ys).
Definition fnrmse_mean (xs ys : list flt) : flt := fdiv (frmse xs ys) (fmean ys).
Definition fnrmse_max_min (xs ys : list flt) : flt := fdiv (frmse xs ys) (fmax_min ys).

(** The divisor of variance and covariance. *)
Definition fdivisor (bessel : bool) (n : nat) : flt := if bessel then fof_size_minus_1 n else fof_size n.

(** variance, 54-62; standard_deviation, 64-67. *)
Definition fvariance (bessel : bool) (xs : list flt) : flt :=
  let m := fmean xs in
  fdiv (fsum (map (fun x => fsquare (fsub x m)) xs)) (fdivisor bessel (length xs)).
Definition fstandard_deviation (bessel : bool) (xs : list flt) : flt := fsqrt (fvariance bessel xs).

(** covariance, 69-80; correlation, 82-87. *)
Definition fcovariance (bessel : bool) (xs ys : list flt) : flt :=
  let mx := fmean xs in
  let my := fmean ys in
  fdiv (fsum (zip_with (fun x y => fmul (fsub x mx) (fsub y my)) xs ys)) (fdivisor bessel (length xs)).
Definition fcorrelation (bessel : bool) (xs ys : list flt) : flt :=
  fdiv (fcovariance bessel xs ys) (fmul (fstandard_deviation bessel xs) (fstandard_deviation bessel ys)).

(** remove_dc, 114-121. *)
Definition fremove_dc (xs : list flt) : list flt := let m := fmean xs in map (fun x => fsub x m) xs.

(** linear_regression, 123-141. *)
Definition flinear_regression (xs ys : list flt) : flt * flt :=
  let mx := fmean xs in
  let my := fmean ys in
  let dx := map (fun x => fsub x mx) xs in
  let dy := map (fun y => fsub y my) ys in
  let ss_ab := fsum (zip_with fmul dx dy) in
  let ss_aa := fsum (map fsquare dx) in
  let beta_1 := fdiv ss_ab ss_aa in
  let beta_2 := fsub my (fmul beta_1 mx) in
  (beta_1, beta_2).
End ieee.

(** float and double. *)
Global Instance prec_gt_0_24 : FLX.Prec_gt_0 24 := eq_refl.
Global Instance prec_lt_emax_24 : Prec_lt_emax 24 128 := eq_refl.
Global Instance prec_gt_0_53 : FLX.Prec_gt_0 53 := eq_refl.
Global Instance prec_lt_emax_53 : Prec_lt_emax 53 1024 := eq_refl.
