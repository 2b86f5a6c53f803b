(** Model of the integer part of /repo/include/efp/numeric.hpp, and of the arithmetic helpers,
    compile-time folds and swap of /repo/include/efp/meta.hpp.

    Sequences are lists: the foldl these functions use is the left fold of the list (C38). *)
From Verif Require Import Base.Cpp.
Local Open Scope Z_scope.

(** ** Integer types *)

(** Width in bits, and signedness. *)
Record ity : Type := ITy { bits : Z; signed : bool }.
Definition lo (t : ity) : Z := if signed t then - 2 ^ (bits t - 1) else 0.
Definition hi (t : ity) : Z := if signed t then 2 ^ (bits t - 1) - 1 else 2 ^ bits t - 1.
Definition in_range (t : ity) (z : Z) : bool := (lo t <=? z) && (z <=? hi t).

(** Conversion to an integer type: modulo 2^bits. *)
Definition conv (t : ity) (z : Z) : Z := (z - lo t) mod 2 ^ bits t + lo t.

(** Integral promotion to int; usual arithmetic conversions. *)
Definition int32 : ity := ITy 32 true.
Definition uint32 : ity := ITy 32 false.
Definition promote (t : ity) : ity := if bits t <? 32 then int32 else t.
Definition common (s t : ity) : ity :=
  let s := promote s in
  let t := promote t in
  if Bool.eqb (signed s) (signed t) then ITy (Z.max (bits s) (bits t)) (signed s)
  else let u := if signed s then t else s in
       let g := if signed s then s else t in
       if bits g <=? bits u then u else g.

(** An arithmetic result in type [p]: overflow is undefined if [p] is signed. *)
Definition arith (p : ity) (z : Z) : res Z :=
  if in_range p z then Ok z else if signed p then UB Overflow else Ok (conv p z).

(** op_add and op_mul of meta.hpp: computed in the promoted type, returned as [t]. *)
Definition op_add (t : ity) (x y : Z) : res Z := let* z := arith (promote t) (x + y) in Ok (conv t z).
Definition op_mul (t : ity) (x y : Z) : res Z := let* z := arith (promote t) (x * y) in Ok (conv t z).
Definition op_sub (t : ity) (x y : Z) : res Z := let* z := arith (promote t) (x - y) in Ok (conv t z).

(** square and abs, numeric.hpp:8-16. *)
Definition square (t : ity) (x : Z) : res Z := op_mul t x x.
Definition abs_ (t : ity) (x : Z) : res Z :=
  if x <? 0 then let* z := arith (promote t) (- x) in Ok (conv t z) else Ok x.

(** ** Comparisons, meta.hpp:278-295 *)
Section order.
Context {A : Type} (lt : A -> A -> bool).

(** max and min, meta.hpp:285-295. *)
Definition max_ (l r : A) : A := if lt r l then l else r.
Definition min_ (l r : A) : A := if lt l r then l else r.

(** clamp, meta.hpp:278-283, with three arguments of one type. The value returned: in C++ it is a
    reference to one of the arguments. *)
Definition clamp (lower upper x : A) : A := if lt upper x then upper else if lt x lower then lower else x.

(** max_elem and min_elem, numeric.hpp:114-122, and _maximum and _minimum, meta.hpp:797-808:
    [start] is NumericLimits::min() or max(). *)
Definition max_elem (start : A) (xs : list A) : A := fold_left max_ xs start.
Definition min_elem (start : A) (xs : list A) : A := fold_left min_ xs start.
End order.

(** clamp of integers of three types: each comparison and the result are made in the common type
    of the operands. *)
Definition clamp_mixed (tl tu tx : ity) (lower upper x : Z) : Z :=
  let r := common tu (common tl tx) in
  if conv (common tx tu) upper <? conv (common tx tu) x then conv r upper
  else if conv (common tx tl) x <? conv (common tx tl) lower then conv r lower else conv r x.

(** ** Reductions, numeric.hpp:124-137 *)

(** foldl with an operation that may be undefined. *)
Fixpoint foldl_res {A B} (f : A -> B -> res A) (a : A) (bs : list B) : res A :=
  match bs with
  | [] => Ok a
  | b :: bs' => let* a := f a b in foldl_res f a bs'
  end.
Definition sum (t : ity) (xs : list Z) : res Z := foldl_res (op_add t) 0 xs.
Definition product (t : ity) (xs : list Z) : res Z := foldl_res (op_mul t) 1 xs.

(** max_min, numeric.hpp:124-127. *)
Definition max_min (t : ity) (xs : list Z) : res Z :=
  op_sub t (max_elem Z.ltb (lo t) xs) (min_elem Z.ltb (hi t) xs).

(** _sum and _product, meta.hpp:809-820: detail::foldl (772-777) recurses with the result type of
    the operation, but the type of the outermost call, and of _foldl (780-783), is that of the
    literal 0 or 1, int. *)
Definition ct_sum (t : ity) (xs : list Z) : res Z := let* z := sum t xs in Ok (conv t (conv int32 z)).
Definition ct_product (t : ity) (xs : list Z) : res Z := let* z := product t xs in Ok (conv t (conv int32 z)).

(** _all and _any, meta.hpp:785-796. *)
Definition all_ (bs : list bool) : bool := fold_left andb bs true.
Definition any_ (bs : list bool) : bool := fold_left orb bs false.

(** The storage of an Enum, enum.hpp:478-480: sizes and alignments of the alternatives. *)
Definition storage_size (sizes : list Z) : Z := max_elem Z.ltb (lo (ITy 64 false)) sizes.
Definition storage_align (aligns : list Z) : Z := max_elem Z.ltb (lo (ITy 64 false)) aligns.

(** swap, meta.hpp:752-758, on two places of a list of objects; [mvd] is what a moved-from object
    keeps. *)
Definition swap_ {A} (mvd : A -> A) (i j : nat) (l : list A) : res (list A) :=
  let* temp := get l i in
  let* l := put l i (mvd temp) in
  let* y := get l j in
  let* l := put l j (mvd y) in
  let* l := put l i y in
  put l j temp.
