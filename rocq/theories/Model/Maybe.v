(** Model of /repo/include/efp/maybe.hpp, and of Tuple in /repo/include/efp/meta.hpp.

    A Maybe<A> is an Enum<Nothing, A>: an index and the object in the storage.  The functions
    take and return such objects by value, so no memory of objects is needed.  Callables may have effects on a state [W]. *)
From Verif Require Import Base.Cpp Model.Enum.

Section maybe.
Context {V W : Type}.

(** The type Nothing and its only value, lines 10-12. *)
Context (nothing_t : nat) (nothing_v : V).

(** Enum<Nothing, A>(const A&) and Enum<Nothing, A>(nothing), enum.hpp:289-297. *)
Definition maybe_from (a t : nat) (v : V) : res (eobj V) :=
  match alt_index [nothing_t; a] t with
  | Some k => Ok (EObj k (Some (t, v)))
  | None => UB WrongMember
  end.
Definition maybe_nothing (a : nat) : res (eobj V) := maybe_from a nothing_t nothing_v.

(** is_nothing, has_value and operator bool, lines 31-37 and 52-54. *)
Definition is_nothing (m : eobj V) : bool := bool_decide (e_idx m = 0).
Definition has_value (m : eobj V) : bool := bool_decide (e_idx m = 1).

(** value, lines 39-42: get<A>. *)
Definition maybe_value (a : nat) (m : eobj V) : res V :=
  if decide (Some (e_idx m) = alt_index [nothing_t; a] a) then e_read m a else Throw.

(** pure, lines 56-59 and 113-116. *)
Definition maybe_pure (a : nat) (v : V) : res (eobj V) := maybe_from a a v.

(** fmap, lines 104-110; the member at 61-67 has the same text with the object as [m]. *)
Definition maybe_fmap (a b : nat) (f : V -> W -> res (V * W)) (m : eobj V) (w : W) : res (eobj V * W) :=
  if has_value m then
    let* v := maybe_value a m in let* (y, w) := f v w in let* r := maybe_from b b y in Ok (r, w)
  else let* r := maybe_nothing b in Ok (r, w).

(** ap, lines 118-124, and the member, 69-75: [app] calls a callable value. *)
Context (app : V -> V -> W -> res (V * W)).
Definition maybe_ap (f a b : nat) (mf m : eobj V) (w : W) : res (eobj V * W) :=
  if has_value mf && has_value m then
    let* g := maybe_value f mf in let* v := maybe_value a m in
    let* (y, w) := app g v w in let* r := maybe_from b b y in Ok (r, w)
  else let* r := maybe_nothing b in Ok (r, w).
Definition maybe_ap_member (f a b : nat) (m mf : eobj V) (w : W) : res (eobj V * W) :=
  if has_value m && has_value mf then
    let* g := maybe_value f mf in let* v := maybe_value a m in
    let* (y, w) := app g v w in let* r := maybe_from b b y in Ok (r, w)
  else let* r := maybe_nothing b in Ok (r, w).

(** bind, lines 128-135; the member and operator>>=, 77-93, have the same text. *)
Definition maybe_bind (a b : nat) (m : eobj V) (f : V -> W -> res (eobj V * W)) (w : W) :
    res (eobj V * W) :=
  if has_value m then let* v := maybe_value a m in f v w
  else let* r := maybe_nothing b in Ok (r, w).

(** ** Tuple *)

(** MakeIndexSequenceImpl, meta.hpp:537-548. *)
Fixpoint make_index_sequence (n : nat) (ns : list nat) : list nat :=
  match n with
  | 0 => ns
  | S n' => make_index_sequence n' (n' :: ns)
  end.

(** A Tuple: one TupleLeaf per index, meta.hpp:504-531, 555-571. *)
Definition tuple := list (nat * V).
Definition tuple_of (xs : list V) : tuple := zip (make_index_sequence (length xs) []) xs.

(** get, meta.hpp:580-588 and 602-644: the leaf of that index. *)
Fixpoint tuple_get (t : tuple) (i : nat) : res V :=
  match t with
  | [] => UB OutOfBounds
  | (j, x) :: t' => if decide (i = j) then Ok x else tuple_get t' i
  end.

(** Assignment through the reference get returns, meta.hpp:585-588. *)
Fixpoint tuple_set (t : tuple) (i : nat) (v : V) : tuple :=
  match t with
  | [] => []
  | (j, x) :: t' => if decide (i = j) then (j, v) :: t' else (j, x) :: tuple_set t' i v
  end.

(** match, meta.hpp:565-571 and 590-593. *)
Fixpoint tuple_args (t : tuple) (is : list nat) : res (list V) :=
  match is with
  | [] => Ok []
  | i :: is' => let* x := tuple_get t i in let* xs := tuple_args t is' in Ok (x :: xs)
  end.
Definition tuple_match {R} (f : list V -> res R) (t : tuple) : res R :=
  let* xs := tuple_args t (make_index_sequence (length t) []) in f xs.

(** TupleLeafComparatorImpl, meta.hpp:648-674: [n] components are left, the last is compared
    first; all but the first with operator!=. *)
Fixpoint tuple_compare (eqb neqb : nat -> V -> V -> bool) (n : nat) (t u : tuple) : res bool :=
  match n with
  | 0 => Ok true
  | S i =>
      let* x := tuple_get t i in
      let* y := tuple_get u i in
      match i with
      | 0 => Ok (eqb i x y)
      | S _ => if neqb i x y then Ok false else tuple_compare eqb neqb i t u
      end
  end.

(** operator== and operator!=, meta.hpp:676-684. *)
Definition tuple_eq eqb neqb (t u : tuple) : res bool := tuple_compare eqb neqb (length t) t u.
Definition tuple_neq eqb neqb (t u : tuple) : res bool :=
  let* b := tuple_eq eqb neqb t u in Ok (negb b).
End maybe.
