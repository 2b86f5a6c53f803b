(** What lines are. *)
From Verif Require Import Base.Cpp.
Local Open Scope Z_scope.

(** [ls] are the lines of [text]: each line of [ls] is followed by a newline (10) in [text], except
    that the last one may end with the text if it is not empty. *)
Definition ended (ls : list (list Z)) : list Z := concat (map (fun l => l ++ [10]) ls).
Definition is_lines (text : list Z) (ls : list (list Z)) : Prop :=
  Forall (fun l => 10 ∉ l) ls /\
  (text = ended ls \/ exists ls' l, ls = ls' ++ [l] /\ l <> [] /\ text = ended ls' ++ l).

(** Lines with a newline between any two. *)
Fixpoint joined (ls : list (list Z)) : list Z :=
  match ls with [] => [] | [l] => l | l :: ls => l ++ 10 :: joined ls end.

Definition is_byte (b : Z) : Prop := 0 <= b < 256.
Definition is_char (c : Z) : Prop := -128 <= c < 128.
