(** Model of /repo/include/efp/scientific.hpp, and of max_elem, min_elem, clamp, max_min and
    is_approx of /repo/include/efp/numeric.hpp on floating-point numbers.

    Simplification: floating-point arithmetic is exact arithmetic on the real numbers; a division by
    zero or the root of a negative number gives [None], which every operation propagates. Rounding,
    overflow to infinity and NaN inputs are not modelled. Sequences are lists: map of one or more
    sequences stops with the shortest (C36), foldl is the left fold (C38). *)
From Coq Require Import Reals.
From Verif Require Import Base.Cpp Model.Numeric.
Local Open Scope R_scope.

(** ** Numbers *)
Notation num := (option R).
Definition lift2 (f : R -> R -> R) (x y : num) : num :=
  match x, y with Some x, Some y => Some (f x y) | _, _ => None end.
Definition nadd : num -> num -> num := lift2 Rplus.
Definition nsub : num -> num -> num := lift2 Rminus.
Definition nmul : num -> num -> num := lift2 Rmult.
Definition ndiv (x y : num) : num :=
  match x, y with Some x, Some y => if Req_EM_T y 0 then None else Some (x / y) | _, _ => None end.
Definition nsqrt (x : num) : num :=
  match x with Some x => if Rlt_dec x 0 then None else Some (R_sqrt.sqrt x) | None => None end.

(** Values of size_t, of int and of size_t arithmetic as numbers. *)
Definition of_Z (z : Z) : num := Some (IZR z).
Definition size_t : ity := ITy 64 false.
Definition of_size (n : nat) : num := of_Z (Z.of_nat n).
(** length(as) - 1, computed in size_t. *)
Definition of_size_minus_1 (n : nat) : num := of_Z (conv size_t (Z.of_nat n - 1)).

(** square, numeric.hpp:8-11; sum, numeric.hpp:129-132. *)
Definition nsquare (x : num) : num := nmul x x.
Definition nsum (xs : list num) : num := fold_left nadd xs (Some 0).

(** ** Statistics *)

(** mean, scientific.hpp:11-14. *)
Definition mean (xs : list num) : num := ndiv (nsum xs) (of_size (length xs)).
(** mean of a sequence of integers: the sum is made in their type. *)
Definition mean_int (t : ity) (xs : list Z) : res num :=
  let* s := sum t xs in Ok (ndiv (of_Z s) (of_size (length xs))).

(** rms, 16-19. *)
Definition rms (xs : list num) : num := nsqrt (mean (map nsquare xs)).

(** sse, 21-28; mse, 30-37; rmse, 39-42. *)
Definition square_error (a b : num) : num := nsquare (nsub a b).
Definition sse (xs ys : list num) : num := nsum (zip_with square_error xs ys).
Definition mse (xs ys : list num) : num := mean (zip_with square_error xs ys).
Definition rmse (xs ys : list num) : num := nsqrt (mse xs ys).

(** Comparisons of numbers; max_elem, min_elem and max_min, numeric.hpp:114-127, start from
    NumericLimits::min(), the least positive normalised number [tiny], and NumericLimits::max(),
    [huge]. *)
Definition Rltb (x y : R) : bool := if Rlt_dec x y then true else false.
Definition max_elem_float (tiny : R) (xs : list R) : R := max_elem Rltb tiny xs.
Definition min_elem_float (huge : R) (xs : list R) : R := min_elem Rltb huge xs.
Definition max_min_float (tiny huge : R) (xs : list R) : R := max_elem_float tiny xs - min_elem_float huge xs.

(** nrmse_mean, 44-47; nrmse_max_min, 49-52. *)
Definition nrmse_mean (xs ys : list num) : num := ndiv (rmse xs ys) (mean ys).
Definition nrmse_max_min (tiny huge : R) (xs ys : list R) : num :=
  ndiv (rmse (map Some xs) (map Some ys)) (Some (max_min_float tiny huge ys)).

(** variance, 54-62; standard_deviation, 64-67. *)
Definition variance (bessel : bool) (xs : list num) : num :=
  let m := mean xs in
  let s := nsum (map (fun x => nsquare (nsub x m)) xs) in
  if bessel then ndiv s (of_size_minus_1 (length xs)) else ndiv s (of_size (length xs)).
Definition standard_deviation (bessel : bool) (xs : list num) : num := nsqrt (variance bessel xs).

(** covariance, 69-80; correlation, 82-87. *)
Definition covariance (bessel : bool) (xs ys : list num) : num :=
  let mx := mean xs in
  let my := mean ys in
  let s := nsum (zip_with (fun x y => nmul (nsub x mx) (nsub y my)) xs ys) in
  if bessel then ndiv s (of_size_minus_1 (length xs)) else ndiv s (of_size (length xs)).
Definition correlation (bessel : bool) (xs ys : list num) : num :=
  ndiv (covariance bessel xs ys) (nmul (standard_deviation bessel xs) (standard_deviation bessel ys)).

(** autocovariance, 89-106: n - lag is computed in size_t and converted to int, and back to size_t
    by for_index (prelude.hpp:371-376); the index i + lag is converted to size_t by operator[]. *)
Definition autocovariance (bessel adjusted : bool) (xs : list num) (lag : Z) : res num :=
  let m := mean xs in
  let n := Z.of_nat (length xs) in
  let sum_length := conv int32 (conv size_t (n - conv size_t lag)) in
  let* summation := for_up (Z.to_nat (conv size_t sum_length)) 0 (fun i s =>
      let* x := get xs i in
      let* y := get xs (Z.to_nat (conv size_t (Z.of_nat i + lag))) in
      Ok (nadd s (nmul (nsub x m) (nsub y m)))) (Some 0) in
  Ok (if adjusted
      then if bessel then ndiv summation (of_Z (conv size_t (conv size_t (n - conv size_t lag) - 1)))
           else ndiv summation (of_Z (conv size_t (n - conv size_t lag)))
      else if bessel then ndiv summation (of_size_minus_1 (length xs)) else ndiv summation (of_size (length xs))).

(** autocorrelation, 108-112. *)
Definition autocorrelation (bessel adjusted : bool) (xs : list num) (lag : Z) : res num :=
  let* c := autocovariance bessel adjusted xs lag in Ok (ndiv c (variance bessel xs)).

(** remove_dc, 114-121. *)
Definition remove_dc (xs : list num) : list num := let m := mean xs in map (fun x => nsub x m) xs.

(** ** Regression *)

(** linear_regression, 123-141. *)
Definition linear_regression (xs ys : list num) : num * num :=
  let mx := mean xs in
  let my := mean ys in
  let dx := map (fun x => nsub x mx) xs in
  let dy := map (fun y => nsub y my) ys in
  let ss_ab := nsum (zip_with nmul dx dy) in
  let ss_aa := nsum (map nsquare dx) in
  let beta_1 := ndiv ss_ab ss_aa in
  let beta_2 := nsub my (nmul beta_1 mx) in
  (beta_1, beta_2).

(** linear_regression_with_index, 143-161: n is an int, and so are n - 1, n * n and
    n * (n * n - 1). *)
Definition linear_regression_with_index (xs : list num) : res (num * num) :=
  let n := conv int32 (Z.of_nat (length xs)) in
  let* n1 := op_sub int32 n 1 in
  let mean_is := ndiv (of_Z n1) (of_Z 2) in
  let m := mean xs in
  let ss_ia := nsum (imap (fun i a => nmul (nsub (of_size i) mean_is) (nsub a m)) xs) in
  let* nn := op_mul int32 n n in
  let* nn1 := op_sub int32 nn 1 in
  let* p := op_mul int32 n nn1 in
  let ss_ii := ndiv (of_Z p) (of_Z 12) in
  let beta_1 := ndiv ss_ia ss_ii in
  let beta_2 := nsub m (nmul beta_1 mean_is) in
  Ok (beta_1, beta_2).

(** detrend, 163-174: the index is passed as an element of the sequence; [cvt] is the conversion of
    size_t to the element type. *)
Definition detrend (cvt : nat -> R) (xs : list num) : res (list num) :=
  let* (beta_1, beta_2) := linear_regression_with_index xs in
  Ok (imap (fun i x => nsub x (nadd (nmul beta_1 (Some (cvt i))) beta_2)) xs).

(** Conversion of an index to double (exact below 2^53) and to an integer type. *)
Definition cvt_exact (i : nat) : R := IZR (Z.of_nat i).
Definition cvt_int (t : ity) (i : nat) : R := IZR (conv t (Z.of_nat i)).

(** ** is_approx, numeric.hpp:18-24 *)

(** The type compared in: the larger of the two, the second if they are equally large. A conversion
    to an integer type drops the fraction; its epsilon is 0. *)
Inductive fty : Type := Float (size : nat) (eps : R) | Int (size : nat).
Definition fsize (t : fty) : nat := match t with Float s _ => s | Int s => s end.
Definition eps_of (t : fty) : R := match t with Float _ e => e | Int _ => 0 end.
Definition trunc (x : R) : R := if Rlt_dec x 0 then - IZR (Int_part (- x)) else IZR (Int_part x).
Definition fcvt (t : fty) (x : R) : R := match t with Float _ _ => x | Int _ => trunc x end.
Definition abs_float (x : R) : R := if Rlt_dec x 0 then - x else x.
Definition is_approx (ta tb : fty) (lhs rhs : R) : bool :=
  let t := if decide (fsize tb < fsize ta)%nat then ta else tb in
  if Rle_dec (abs_float (fcvt t lhs - fcvt t rhs)) (eps_of t) then true else false.
