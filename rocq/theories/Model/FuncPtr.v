(** Model of /repo/include/efp/c_utility.hpp: func_ptr. *)
From Verif Require Import Base.Cpp.

Section func_ptr.
(** [body t s x] is operator() of the callable type [t] with captured state [s] and arguments [x]: the
    new captured state and the result. *)
Context {S A R : Type} (body : nat -> S -> A -> S * R).

(** The callable objects, by address, with their type and captured state; LambdaPointer<F>::inner_ptr
    of each type [F], 36-40: null or an address. *)
Record state : Type := State { objs : nat -> option (nat * S); inner_ptr : nat -> option nat }.

Definition set {B} (i : nat) (x : B) (f : nat -> B) : nat -> B := fun j => if decide (j = i) then x else f j.

(** A function pointer that func_ptr returned is LambdaPointer<F>::Helper<...>::call for the type [F]:
    it is known by this type. *)
Definition pointer : Type := nat.

(** func_ptr, 46-49. *)
Definition func_ptr (a : nat) (st : state) : res (pointer * state) :=
  match objs st a with
  | Some (t, _) => Ok (t, State (objs st) (set t (Some a) (inner_ptr st)))
  | None => UB DeadObject
  end.
(** Helper::call, 31-33: the object at inner_ptr is taken for one of type [F]. *)
Definition call (p : pointer) (x : A) (st : state) : res (R * state) :=
  match inner_ptr st p with
  | None => UB NullDeref
  | Some a =>
      match objs st a with
      | Some (t, s) =>
          if decide (t = p) then let '(s, r) := body t s x in Ok (r, State (set a (Some (t, s)) (objs st)) (inner_ptr st))
          else UB UseAfterFree
      | None => UB UseAfterFree
      end
  end.

(** What programs do: create, change, call directly and destroy callable objects, and use the above. *)
Inductive op : Type :=
| Create (a t : nat) (s : S) | Change (a : nat) (s : S) | Direct (a : nat) (x : A) | Destroy (a : nat)
| FuncPtr (a : nat) | Call (p : pointer) (x : A).
Definition step (o : op) (st : state) : option (res state) :=
  match o with
  | Create a t s =>
      match objs st a with
      | None => Some (Ok (State (set a (Some (t, s)) (objs st)) (inner_ptr st)))
      | Some _ => None
      end
  | Change a s =>
      match objs st a with
      | Some (t, _) => Some (Ok (State (set a (Some (t, s)) (objs st)) (inner_ptr st)))
      | None => None
      end
  | Direct a x =>
      match objs st a with
      | Some (t, s) => Some (Ok (State (set a (Some (t, (body t s x).1)) (objs st)) (inner_ptr st)))
      | None => None
      end
  | Destroy a => Some (Ok (State (set a None (objs st)) (inner_ptr st)))
  | FuncPtr a => Some (let* (_, st) := func_ptr a st in Ok st)
  | Call p x => Some (let* (_, st) := call p x st in Ok st)
  end.
End func_ptr.
Arguments state : clear implicits.
Arguments op : clear implicits.
