(** Sums and products of lists of integers, and strict total orders given by a test. *)
From Verif Require Import Base.Cpp.

Definition zsum (xs : list Z) : Z := foldr Z.add 0%Z xs.
Definition zprod (xs : list Z) : Z := foldr Z.mul 1%Z xs.

(** [lt] decides a strict total order. *)
Record total_order {A} (lt : A -> A -> bool) : Prop := {
  lt_irrefl : forall x, lt x x = false;
  lt_trans : forall x y z, lt x y = true -> lt y z = true -> lt x z = true;
  lt_total : forall x y, lt x y = false -> lt y x = false -> x = y }.

(** [x] is at most [y]. *)
Definition at_most {A} (lt : A -> A -> bool) (x y : A) : Prop := lt y x = false.
