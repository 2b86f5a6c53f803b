(** Specification of Enum: a list of variables, each holding a value of one of the alternatives
    or being gone, changed by the operations of the API. *)
From Verif Require Import Base.Cpp Model.Enum.

(** What a program does with Enum objects; objects are numbered in order of creation. *)
Inductive eop (V : Type) : Type :=
| NewDefault
| NewFrom (by_move : bool) (t : nat) (v : V)   (* from a value of type t *)
| NewCopy (j : nat)
| NewMove (j : nat)
| Assign (by_move : bool) (i j : nat)          (* object i = object j *)
| SetValue (t i : nat) (v : V)                 (* object i .get<t>() = v *)
| TakeValue (t i : nat)                        (* T x = object i .move<t>() *)
| Destroy (i : nat).
Arguments NewDefault {V}.
Arguments NewFrom {V}.
Arguments NewCopy {V}.
Arguments NewMove {V}.
Arguments Assign {V}.
Arguments SetValue {V}.
Arguments TakeValue {V}.
Arguments Destroy {V}.

(** The values held, with their types ([None]: destroyed). *)
Notation estate V := (list (option (nat * V))).

Section spec.
Context {V : Type} (alts : list nat) (d : V) (mvd : nat -> V -> V).

Definition held (s : estate V) (i : nat) : option (nat * V) := mjoin (s !! i).

(** The effect of an operation; [None] if the program may not do it (an object that is gone, a
    type that is no alternative, an alternative that is not held). *)
Definition spec_step (s : estate V) (o : eop V) : option (estate V) :=
  match o with
  | NewDefault => match alts with [] => None | t :: _ => Some (s ++ [Some (t, d)]) end
  | NewFrom _ t v => if decide (t ∈ alts) then Some (s ++ [Some (t, v)]) else None
  | NewCopy j => match held s j with Some x => Some (s ++ [Some x]) | None => None end
  | NewMove j =>
      match held s j with
      | Some (t, v) => Some (<[j := Some (t, mvd t v)]> s ++ [Some (t, v)])
      | None => None
      end
  | Assign by_move i j =>
      match held s i, held s j with
      | Some _, Some (t, v) =>
          if decide (i = j) then Some s
          else Some (<[i := Some (t, v)]> (if by_move : bool then <[j := Some (t, mvd t v)]> s else s))
      | _, _ => None
      end
  | SetValue t i v =>
      match held s i with
      | Some (t', _) => if decide (t = t') then Some (<[i := Some (t, v)]> s) else None
      | None => None
      end
  | TakeValue t i =>
      match held s i with
      | Some (t', v) => if decide (t = t') then Some (<[i := Some (t, mvd t v)]> s) else None
      | None => None
      end
  | Destroy i => match held s i with Some _ => Some (<[i := None]> s) | None => None end
  end.

Fixpoint spec_run (s : estate V) (h : list (eop V)) : option (estate V) :=
  match h with
  | [] => Some s
  | o :: h' => match spec_step s o with Some s' => spec_run s' h' | None => None end
  end.

(** The same operations on the model, with copies that do not throw and destructors that do not
    touch other Enum objects. *)
Definition quiet (t : nat) (v : V) (m : emem V) : emem V := m.
Definition never (t : nat) (v : V) : bool := false.

Definition e_step (o : eop V) (m : emem V) : res (emem V) :=
  match o with
  | NewDefault => let* (_, m) := e_default alts d m in Ok m
  | NewFrom b t v => let* (_, m) := e_from alts never b t v m in Ok m
  | NewCopy j => let* (_, m) := e_copy alts never j m in Ok m
  | NewMove j => let* (_, m) := e_move alts mvd j m in Ok m
  | Assign b i j => let* (m, _) := e_assign alts mvd never quiet b i j m in Ok m
  | SetValue t i v => e_set alts t i v m
  | TakeValue t i => let* (_, m) := e_take alts mvd t i m in Ok m
  | Destroy i => e_destroy alts quiet i m
  end.
Fixpoint e_run (h : list (eop V)) (m : emem V) : res (emem V) :=
  match h with
  | [] => Ok m
  | o :: h' => let* m := e_step o m in e_run h' m
  end.
Definition no_objects : emem V := EMem [] [] [].

(** The position of a type among the alternatives: the first place it stands at. *)
Definition position (t k : nat) : Prop :=
  alts !! k = Some t /\ forall l, l < k -> alts !! l <> Some t.

(** The types of the values now held. *)
Definition held_types (s : estate V) : list nat := omap (fmap fst) s.
End spec.
