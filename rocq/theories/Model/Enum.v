(** Model of /repo/include/efp/enum.hpp (and PackAt, Find of meta.hpp, Maybe of maybe.hpp).

    Types are numbered.  Every alternative is treated as a class type: each object must be
    destroyed exactly once, by the destructor of its own type.  A value of any alternative is an
    element of one type [V].  Enum objects live in a list; the storage of each holds at most one
    object, with the type it was constructed with. *)
From Verif Require Import Base.Cpp.

(** ** Dispatch *)

(** power_2_ceiling, lines 11-13, in uint8_t.  [None]: the recursion is not finished after
    [fuel] calls. *)
Fixpoint power_2_ceiling (fuel n power : nat) : option nat :=
  match fuel with
  | 0 => None
  | S fuel' =>
      if decide (n <= power) then Some (power - 1) else power_2_ceiling fuel' n ((power * 2) mod 256)
  end.

(** EnumSwitch<alt_num, Case>::call(index, ...), lines 15-142: cases 0 .. stamp_n, bounded to
    the last alternative.  If the compile-time recursion does not end, or alt_num - 1 is negative
    (no template argument of type uint8_t), there is no program. *)
Definition enum_switch {X} (alt_num index : nat) (case : nat -> res X) : res X :=
  match power_2_ceiling 256 alt_num 2 with
  | None => Diverge
  | Some p => if decide (alt_num = 0) then Diverge
              else if decide (index <= p) then case (if decide (index < alt_num) then index else alt_num - 1)
              else Throw
  end.

(** PackAt, meta.hpp:321-337; past the end it is void*, which no alternative is. *)
Definition pack_at (alts : list nat) (i : nat) : res nat :=
  match alts !! i with Some t => Ok t | None => UB WrongMember end.

(** Find with IsSameUnary, meta.hpp:341-353, and AltIndex, lines 410-411: the first position of
    the type. *)
Fixpoint alt_index (alts : list nat) (t : nat) : option nat :=
  match alts with
  | [] => None
  | t' :: alts' => if decide (t = t') then Some 0 else S <$> alt_index alts' t
  end.

(** ** Objects *)
Section enum.
Context {V : Type}.

(** _index, and the object in _storage with its type. *)
Record eobj : Type := EObj { e_idx : nat; e_obj : option (nat * V) }.

(** All Enum objects ([None]: the object is gone), and the types of the alternatives constructed
    and destroyed so far. *)
Record emem : Type := EMem { e_objs : list (option eobj); e_ctors : list nat; e_dtors : list nat }.

Definition e_at (m : emem) (i : nat) : res eobj :=
  match e_objs m !! i with Some (Some o) => Ok o | _ => UB UseAfterFree end.
Definition e_put (m : emem) (i : nat) (o : eobj) : emem :=
  EMem (<[i := Some o]> (e_objs m)) (e_ctors m) (e_dtors m).

(** Context of an instantiation: the alternatives; the value a moved-from alternative keeps;
    which copies throw; the effect the destructor of a value has on other objects. *)
Context (alts : list nat) (mvd : nat -> V -> V) (throws : nat -> V -> bool)
        (dtor : nat -> V -> emem -> emem).

(** alt_num, line 240, a uint8_t. *)
Definition alt_num : nat := length alts mod 256.

(** Placement new of a [t] into the storage of object [i]. *)
Definition e_construct (m : emem) (i t : nat) (v : V) : res emem :=
  let* o := e_at m i in
  Ok (EMem (<[i := Some (EObj (e_idx o) (Some (t, v)))]> (e_objs m)) (t :: e_ctors m) (e_dtors m)).

(** Access to the storage of an object as a [t]. *)
Definition e_read (o : eobj) (t : nat) : res V :=
  match e_obj o with
  | None => UB DeadObject
  | Some (t', v) => if decide (t = t') then Ok v else UB WrongMember
  end.

(** CopyCase, lines 414-421; the second component tells whether the copy threw. *)
Definition copy_case (self other : nat) (m : emem) (i : nat) : res (emem * bool) :=
  let* t := pack_at alts i in
  let* o := e_at m other in
  let* v := e_read o t in
  if throws t v then Ok (m, true)
  else let* m := e_construct m self t v in Ok (m, false).

(** MoveCase, lines 423-430: the source keeps the moved-from value. *)
Definition move_case (self other : nat) (m : emem) (i : nat) : res (emem * bool) :=
  let* t := pack_at alts i in
  let* o := e_at m other in
  let* v := e_read o t in
  let* m := e_construct m self t v in
  let* o := e_at m other in
  Ok (e_put m other (EObj (e_idx o) (Some (t, mvd t v))), false).

(** DestroyCase, lines 432-439. *)
Definition destroy_case (self : nat) (m : emem) (i : nat) : res emem :=
  let* t := pack_at alts i in
  let* o := e_at m self in
  let* v := e_read o t in
  Ok (dtor t v (EMem (<[self := Some (EObj (e_idx o) None)]> (e_objs m)) (e_ctors m) (t :: e_dtors m))).

(** A new Enum object with index [k] and empty storage. *)
Definition e_alloc (m : emem) (k : nat) : nat * emem :=
  (length (e_objs m), EMem (e_objs m ++ [Some (EObj k None)]) (e_ctors m) (e_dtors m)).

(** Constructors return the new object, or [None] if they threw (then there is no object). *)
Definition e_made (i : nat) (r : emem * bool) : option nat * emem :=
  let (m, threw) := r in
  if threw : bool then (None, EMem (<[i := None]> (e_objs m)) (e_ctors m) (e_dtors m)) else (Some i, m).

(** EnumBase(), lines 243-245; [d] is A{}. *)
Definition e_default (d : V) (m : emem) : res (option nat * emem) :=
  let (i, m) := e_alloc m 0 in
  let* t := pack_at alts 0 in
  let* m := e_construct m i t d in Ok (Some i, m).

(** EnumBase(const EnumBase&), lines 247-249, and EnumBase(EnumBase&&), 264-270. *)
Definition e_copy (j : nat) (m : emem) : res (option nat * emem) :=
  let* o := e_at m j in
  let (i, m) := e_alloc m (e_idx o) in
  let* r := enum_switch alt_num (e_idx o) (copy_case i j m) in Ok (e_made i r).
Definition e_move (j : nat) (m : emem) : res (option nat * emem) :=
  let* o := e_at m j in
  let (i, m) := e_alloc m (e_idx o) in
  let* r := enum_switch alt_num (e_idx o) (move_case i j m) in Ok (e_made i r).

(** operator=, lines 251-262 and 272-283; the flag tells whether it threw. *)
Definition e_assign (by_move : bool) (i j : nat) (m : emem) : res (emem * bool) :=
  if decide (i = j) then Ok (m, false)
  else
    let* o := e_at m i in
    let* m := enum_switch alt_num (e_idx o) (destroy_case i m) in
    let* s := e_at m j in
    let* o := e_at m i in
    let m := e_put m i (EObj (e_idx s) (e_obj o)) in
    if by_move then enum_switch alt_num (e_idx s) (move_case i j m)
    else enum_switch alt_num (e_idx s) (copy_case i j m).

(** ~EnumBase, lines 285-287. *)
Definition e_destroy (i : nat) (m : emem) : res emem :=
  let* o := e_at m i in
  let* m := enum_switch alt_num (e_idx o) (destroy_case i m) in
  let* _ := e_at m i in
  Ok (EMem (<[i := None]> (e_objs m)) (e_ctors m) (e_dtors m)).

(** EnumBase(const Alt&), lines 289-292, and EnumBase(Alt&&), 294-297; _index is a
    uint8_t. *)
Definition e_from (by_move : bool) (t : nat) (v : V) (m : emem) : res (option nat * emem) :=
  match alt_index alts t with
  | None => UB WrongMember
  | Some k =>
      let (i, m) := e_alloc m (k mod 256) in
      if negb by_move && throws t v then Ok (e_made i (m, true))
      else let* m := e_construct m i t v in Ok (e_made i (m, false))
  end.

(** index(), lines 315-317; get<Alt>(), 319-335; get<i>(), 337-353. *)
Definition e_index (i : nat) (m : emem) : res nat := let* o := e_at m i in Ok (e_idx o).
Definition e_get (t i : nat) (m : emem) : res V :=
  let* o := e_at m i in
  if decide (Some (e_idx o) = alt_index alts t) then e_read o t else Throw.
Definition e_get_at (k i : nat) (m : emem) : res V :=
  let* o := e_at m i in
  let* t := pack_at alts k in
  if decide (e_idx o = k) then e_read o t else Throw.

(** Assignment through the reference get<Alt>() returns. *)
Definition e_set (t i : nat) (v : V) (m : emem) : res emem :=
  let* _ := e_get t i m in
  let* o := e_at m i in
  Ok (e_put m i (EObj (e_idx o) (Some (t, v)))).

(** Constructing an object from move<Alt>(), lines 364-371. *)
Definition e_take (t i : nat) (m : emem) : res (V * emem) :=
  let* v := e_get t i m in
  let* o := e_at m i in
  Ok (v, e_put m i (EObj (e_idx o) (Some (t, mvd t v)))).

(** operator==, lines 299-309, with EqCase, 441-449; operator!=, 311-313. *)
Definition e_eq (eqb : nat -> V -> V -> bool) (i j : nat) (m : emem) : res bool :=
  let* a := e_at m i in
  let* b := e_at m j in
  if decide (e_idx a = e_idx b) then
    enum_switch alt_num (e_idx a) (fun k =>
      let* t := pack_at alts k in
      let* x := e_read a t in
      let* y := e_read b t in Ok (eqb t x y))
  else Ok false.
Definition e_neq eqb (i j : nat) (m : emem) : res bool := let* b := e_eq eqb i j m in Ok (negb b).

(** ** match *)
Context {W R : Type}.

(** A branch takes a parameter of some type, or nothing (a wild card). *)
Inductive branch : Type :=
| Typed (p : nat) (f : V -> W -> res (R * W))
| Wild (f : W -> res (R * W)).

Definition is_wild (b : branch) : bool := match b with Wild _ => true | _ => false end.

(** Overload resolution over the branches, Overloaded and WildCardWrapper, lines 151-224:
    [conv p t] is the rank of converting an alternative of type [t] to parameter type [p]
    (0 exact, [None] impossible).  A wild card is wrapped into a template that takes anything
    exactly.  Simplification: [conv] covers standard conversions only (from C++14 on, a branch
    reachable only by a user-defined conversion competes with BadParam, lines 186-208). *)
Context (conv : nat -> nat -> option nat).

Definition rank (b : branch) (t : nat) : option nat :=
  match b with Typed p _ => conv p t | Wild _ => Some 0 end.
(** [b] is strictly better than [c]: a lower rank, or the same and only [c] is a template. *)
Definition better (t : nat) (b c : branch) : bool :=
  match rank b t, rank c t with
  | Some x, Some y => bool_decide (x < y) || (bool_decide (x = y) && negb (is_wild b) && is_wild c)
  | Some _, None => true
  | None, _ => false
  end.
Definition viable (t : nat) (b : branch) : bool := match rank b t with Some _ => true | None => false end.

(** The branch better than all others; [None] if there is none (no match, or ambiguous: the
    program does not compile). *)
Definition select (pat : list branch) (t : nat) : option branch :=
  let best k b := viable t b &&
    forallb (fun '(l, c) => bool_decide (l = k) || better t b c) (imap pair pat) in
  match List.filter (fun '(k, b) => best k b) (imap pair pat) with
  | (_, b) :: _ => Some b
  | [] => None
  end.

(** IsRelevantBranch and PatternCheck, lines 464-476. *)
Definition relevant (b : branch) : bool :=
  match b with
  | Typed p _ => existsb (fun t => match conv p t with Some _ => true | None => false end) alts
  | Wild _ => false
  end.
Fixpoint pattern_check (pat : list branch) : bool :=
  match pat with
  | [] => false
  | [b] => relevant b || is_wild b
  | b :: pat' => relevant b && negb (is_wild b) && pattern_check pat'
  end.

(** match, lines 393-407, with Match::Case, 451-462. *)
Definition e_match (pat : list branch) (i : nat) (m : emem) (w : W) : res (R * W) :=
  let* o := e_at m i in
  enum_switch alt_num (e_idx o) (fun k =>
    let* t := pack_at alts k in
    let* v := e_get t i m in
    match select pat t with
    | Some (Typed _ f) => f v w
    | Some (Wild f) => f w
    | None => UB WrongMember
    end).
End enum.
Arguments eobj : clear implicits.
Arguments emem : clear implicits.
Arguments branch : clear implicits.
