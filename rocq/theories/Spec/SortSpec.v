(** What "sorted", "stable" and "strict weak order" mean; independent of the model. *)
From stdpp Require Import base list.

Section spec.
Context {A : Type}.

(** The requirement C++ puts on a comparison function. *)
Record strict_weak_order (comp : A -> A -> bool) : Prop := {
  swo_irrefl : forall x, comp x x = false;
  swo_trans : forall x y z, comp x y = true -> comp y z = true -> comp x z = true;
  swo_incomp_trans : forall x y z,
    comp x y = false -> comp y x = false ->
    comp y z = false -> comp z y = false ->
    comp x z = false /\ comp z x = false }.

(** No later element is comp-less than an earlier one. *)
Definition sorted_by (comp : A -> A -> bool) (l : list A) : Prop :=
  forall i j x y, i < j -> l !! i = Some x -> l !! j = Some y -> comp y x = false.

(** [x] and [y] compare equivalent. *)
Definition equivb (comp : A -> A -> bool) (x y : A) : bool :=
  negb (comp x y) && negb (comp y x).

(** For every [x], the elements equivalent to [x] appear in the same order. *)
Definition stable_wrt (comp : A -> A -> bool) (l l' : list A) : Prop :=
  forall x, List.filter (equivb comp x) l' = List.filter (equivb comp x) l.

Definition is_sort_of (comp : A -> A -> bool) (l l' : list A) : Prop :=
  Permutation l l' /\ sorted_by comp l'.

Definition is_stable_sort_of (comp : A -> A -> bool) (l l' : list A) : Prop :=
  Permutation l l' /\ sorted_by comp l' /\ stable_wrt comp l l'.

(** [l'] is [l] with positions lo..hi (inclusive) replaced by a sort of them. *)
Definition is_range_sort_of (comp : A -> A -> bool) (lo hi : nat) (l l' : list A) : Prop :=
  exists pre seg seg' post,
    l = pre ++ seg ++ post /\ l' = pre ++ seg' ++ post /\
    length pre = lo /\ length seg = S hi - lo /\
    is_sort_of comp seg seg'.

(** Consecutive chunks of [n] elements (the last one may be shorter). *)
Fixpoint chunks_aux (fuel n : nat) (l : list A) : list (list A) :=
  match fuel, l with
  | S f, _ :: _ => take n l :: chunks_aux f n (drop n l)
  | _, _ => []
  end.
Definition chunks (n : nat) (l : list A) : list (list A) := chunks_aux (length l) n l.
End spec.
