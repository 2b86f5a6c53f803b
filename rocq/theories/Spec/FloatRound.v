(** What it means to round a number to an integer. *)
From Coq Require Import ZArith QArith Qabs.
Local Open Scope Q_scope.

(** [m] is the integer nearest to [x], and of two nearest ones the even one. *)
Definition nearest_even (x : Q) (m : Z) : Prop :=
  Qabs (x - inject_Z m) <= 1 # 2 /\ (Qabs (x - inject_Z m) == 1 # 2 -> Z.Even m).
