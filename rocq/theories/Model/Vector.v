(** Model of VectorBase, /repo/include/efp/sequence.hpp:536-903 (Vector inherits it).

    A vector is its three fields; the heap block behind [_data] lives in the memory.
    [construct], [destroy], [allocate], [deallocate] of AllocatorTraits (allocator.hpp, or
    std::allocator_traits) are placement new, destructor call, fresh block and block release.
    Simplifications: sizes are unbounded naturals, allocation never fails, element
    constructors do not throw.  Every [throw] of this class precedes the first write, so
    [Throw] carries no memory: the object is as it was. *)
From Verif Require Import Base.Cpp Base.Mem.

Inductive ptr : Type := Null | Indet | Blk (b : nat).

Record vec : Type := Vec { v_data : ptr; v_size : nat; v_cap : nat }.

Section vector.
Context {A : Type} (E : ety A).

(** Access through a pointer. *)
Definition with_ptr {B} (p : ptr) (f : nat -> res B) : res B :=
  match p with Null => UB NullDeref | Indet => UB IndetPtr | Blk b => f b end.
Definition pread (m : mem A) (p : ptr) (i : nat) : res A := with_ptr p (fun b => read m b i).
Definition pconstruct (m : mem A) (p : ptr) (i : nat) (a : A) : res (mem A) :=
  with_ptr p (fun b => construct E m b i a).
Definition pdestroy (m : mem A) (p : ptr) (i : nat) : res (mem A) :=
  with_ptr p (fun b => destroy E m b i).
Definition passign (m : mem A) (p : ptr) (i : nat) (a : A) : res (mem A) :=
  with_ptr p (fun b => assign E m b i a).
Definition pmove_out (m : mem A) (p : ptr) (i : nat) : res (A * mem A) :=
  with_ptr p (fun b => move_out E m b i).
(** deallocate(nullptr, 0) ends in operator delete(nullptr), which does nothing. *)
Definition pfree (m : mem A) (p : ptr) : res (mem A) :=
  match p with Null => Ok m | Indet => UB IndetPtr | Blk b => free E m b end.

(** for (i = 0; i < n; ++i) destroy(p + i): lines 576-579, 604-607, 661-664, 729-732, 758-761, 850-853. *)
Definition destroy_all (p : ptr) (n : nat) (m : mem A) : res (mem A) :=
  for_up n 0 (fun i m => pdestroy m p i) m.

(** VectorBase(), line 557. *)
Definition vec_new : vec := Vec Null 0 0.

(** VectorBase(const VectorBase&), lines 559-571. [_data] has no initialiser: it stays
    indeterminate when the source has no allocation. *)
Definition vec_copy (other : vec) (m : mem A) : res (vec * mem A) :=
  match v_data other with
  | Indet => UB IndetPtr
  | Null => Ok (Vec Indet (v_size other) (v_cap other), m)
  | Blk bo =>
      let (b, m1) := alloc m (v_cap other) in
      let* m2 := for_up (v_size other) 0 (fun i m =>
        let* x := pread m (v_data other) i in construct E m b i x) m1 in
      Ok (Vec (Blk b) (v_size other) (v_cap other), m2)
  end.

(** reserve, lines 716-741. *)
Definition vec_reserve (self : vec) (new_capacity : nat) (m : mem A) : res (vec * mem A) :=
  if decide (v_cap self < new_capacity) then
    let (b, m1) := alloc m new_capacity in
    let* m2 := for_up (v_size self) 0 (fun i m =>
      let* (x, m) := pmove_out m (v_data self) i in construct E m b i x) m1 in
    let* m3 := destroy_all (v_data self) (v_size self) m2 in
    let* m4 := pfree m3 (v_data self) in
    Ok (Vec (Blk b) (v_size self) new_capacity, m4)
  else Ok (self, m).

(** resize, lines 707-714. *)
Definition vec_resize (self : vec) (new_size : nat) (m : mem A) : res (vec * mem A) :=
  let* (s, m) := (if decide (v_cap self < new_size + 1)
                  then vec_reserve self (new_size + 1) m else Ok (self, m)) in
  Ok (Vec (v_data s) new_size (v_cap s), m).

(** operator=(const VectorBase&), lines 574-592, for this != &other. *)
Definition vec_copy_assign (self other : vec) (m : mem A) : res (vec * mem A) :=
  let* m1 := destroy_all (v_data self) (v_size self) m in
  let* (s, m2) := (if decide (v_cap self < v_size other + 1)
                   then vec_resize self (v_size other) m1 else Ok (self, m1)) in
  let* m3 := for_up (v_size other) 0 (fun i m =>
    let* x := pread m (v_data other) i in pconstruct m (v_data s) i x) m2 in
  Ok (s, m3).

(** VectorBase(VectorBase&&), lines 594-600: (new vector, what other becomes). *)
Definition vec_move (other : vec) : vec * vec :=
  (Vec (v_data other) (v_size other) (v_cap other), Vec Null 0 0).

(** operator=(VectorBase&&), lines 602-621, for this != &other. *)
Definition vec_move_assign (self other : vec) (m : mem A) : res (vec * vec * mem A) :=
  let* m1 := destroy_all (v_data self) (v_size self) m in
  let* m2 := pfree m1 (v_data self) in
  Ok (Vec (v_data other) (v_size other) (v_cap other), Vec Null 0 0, m2).

(** VectorBase(InitializerList), lines 623-633; VectorBase(const Array&), 636-645;
    VectorBase(const ArrVec&), 648-657: all allocate size + 1 and copy the elements [xs]. *)
Definition vec_of_list (xs : list A) (m : mem A) : res (vec * mem A) :=
  let (b, m1) := alloc m (length xs + 1) in
  let* m2 := for_up (length xs) 0 (fun i m =>
    let* x := get xs i in construct E m b i x) m1 in
  Ok (Vec (Blk b) (length xs) (length xs + 1), m2).

(** ~VectorBase, lines 659-670. *)
Definition vec_destroy (self : vec) (m : mem A) : res (mem A) :=
  match v_data self with
  | Null => Ok m
  | Indet => UB IndetPtr
  | Blk b =>
      let* m1 := destroy_all (v_data self) (v_size self) m in free E m1 b
  end.

(** operator[], lines 672-678; data/begin/end, 857-879. *)
Definition vec_get (self : vec) (index : nat) (m : mem A) : res A := pread m (v_data self) index.
Definition vec_set (self : vec) (index : nat) (x : A) (m : mem A) : res (mem A) :=
  passign m (v_data self) index x.
Definition vec_iter (self : vec) (m : mem A) : res (list A) :=
  for_up (v_size self) 0 (fun i acc => let* x := pread m (v_data self) i in Ok (acc ++ [x])) [].

(** operator==, lines 680-692, for an element type whose != is [ne]. *)
Definition vec_eq (ne : A -> A -> bool) (self other : vec) (m : mem A) : res bool :=
  if decide (v_size self <> v_size other) then Ok false
  else
    loop (S (v_size self)) (fun i =>
      if decide (i < v_size self) then
        let* x := pread m (v_data self) i in
        let* y := pread m (v_data other) i in
        if ne x y then Ok (inr false) else Ok (inl (S i))
      else Ok (inr true)) 0.

(** shrink_to_fit, lines 743-770. *)
Definition vec_shrink (self : vec) (m : mem A) : res (vec * mem A) :=
  if decide (v_size self < v_cap self + 1) then
    let (b, m1) := alloc m (v_size self + 1) in
    let* m2 := for_up (v_size self) 0 (fun i m =>
      let* (x, m) := pmove_out m (v_data self) i in construct E m b i x) m1 in
    let* m3 := destroy_all (v_data self) (v_size self) m2 in
    let* m4 := pfree m3 (v_data self) in
    Ok (Vec (Blk b) (v_size self) (v_size self + 1), m4)
  else Ok (self, m).

(** The growth step of push_back and emplace_back, lines 773-775, 783-785, 794-796. *)
Definition vec_grow (self : vec) (m : mem A) : res (vec * mem A) :=
  if decide (v_cap self <= v_size self + 1)
  then vec_reserve self (if decide (v_size self = 0) then 2 else 2 * v_size self + 1) m
  else Ok (self, m).

(** push_back(const Element&), lines 772-780, push_back(Element&&), 782-790, and
    emplace_back, 793-805, for an argument outside the vector. *)
Definition vec_push (self : vec) (value : A) (m : mem A) : res (vec * mem A) :=
  let* (s, m1) := vec_grow self m in
  let* m2 := pconstruct m1 (v_data s) (v_size s) value in
  Ok (Vec (v_data s) (v_size s + 1) (v_cap s), m2).

(** push_back(v[index]): the argument is a reference into the block the vector had on
    entry and is read when the new element is constructed (line 778). *)
Definition vec_push_own (self : vec) (index : nat) (m : mem A) : res (vec * mem A) :=
  let* (s, m1) := vec_grow self m in
  let* value := pread m1 (v_data self) index in
  let* m2 := pconstruct m1 (v_data s) (v_size s) value in
  Ok (Vec (v_data s) (v_size s + 1) (v_cap s), m2).

(** pop_back, lines 807-814. *)
Definition vec_pop (self : vec) (m : mem A) : res (vec * mem A) :=
  if decide (v_size self = 0) then Throw
  else
    let* m1 := pdestroy m (v_data self) (v_size self - 1) in
    Ok (Vec (v_data self) (v_size self - 1) (v_cap self), m1).

(** insert, lines 816-832, for an argument outside the vector. *)
Definition vec_insert (self : vec) (index : nat) (value : A) (m : mem A) : res (vec * mem A) :=
  if decide (v_size self < index) then Throw
  else
    let* (s, m1) := (if decide (v_cap self <= v_size self + 1)
                     then vec_reserve self (if decide (v_cap self = 0) then 2 else 2 * v_cap self) m
                     else Ok (self, m)) in
    (* for (i = size; i > index; --i) data[i] = move(data[i - 1]); here k = i - 1 *)
    let* m2 := for_down (v_size s) index (fun k m =>
      let* (x, m) := pmove_out m (v_data s) k in passign m (v_data s) (S k) x) m1 in
    let* m3 := pconstruct m2 (v_data s) index value in
    Ok (Vec (v_data s) (v_size s + 1) (v_cap s), m3).

(** erase, lines 834-847. *)
Definition vec_erase (self : vec) (index : nat) (m : mem A) : res (vec * mem A) :=
  if decide (v_size self <= index) then Throw
  else
    let* m1 := pdestroy m (v_data self) index in
    let* m2 := for_up (v_size self - 1 - index) index (fun i m =>
      let* (x, m) := pmove_out m (v_data self) (i + 1) in passign m (v_data self) i x) m1 in
    Ok (Vec (v_data self) (v_size self - 1) (v_cap self), m2).

(** clear, lines 849-855. *)
Definition vec_clear (self : vec) (m : mem A) : res (vec * mem A) :=
  let* m1 := destroy_all (v_data self) (v_size self) m in
  Ok (Vec (v_data self) 0 (v_cap self), m1).

(** ** Histories *)
Inductive vop : Type :=
| VPush (a : A) | VPop | VInsert (i : nat) (a : A) | VErase (i : nat) | VClear
| VReserve (k : nat) | VShrink | VSet (i : nat) (a : A).

Definition vec_step (o : vop) (self : vec) (m : mem A) : res (vec * mem A) :=
  match o with
  | VPush a => vec_push self a m
  | VPop => vec_pop self m
  | VInsert i a => vec_insert self i a m
  | VErase i => vec_erase self i m
  | VClear => vec_clear self m
  | VReserve k => vec_reserve self k m
  | VShrink => vec_shrink self m
  | VSet i a => let* m1 := vec_set self i a m in Ok (self, m1)
  end.

(** A history; the flags say which operations threw.  After a throw it goes on with the
    object as it was. *)
Fixpoint vec_run (ops : list vop) (self : vec) (m : mem A) : res (list bool * vec * mem A) :=
  match ops with
  | [] => Ok ([], self, m)
  | o :: ops' =>
      match vec_step o self m with
      | Ok (s, m1) => let* (ts, s', m2) := vec_run ops' s m1 in Ok (false :: ts, s', m2)
      | Throw => let* (ts, s', m2) := vec_run ops' self m in Ok (true :: ts, s', m2)
      | UB k => UB k
      | Diverge => Diverge
      end
  end.

(** ** Several vectors in one program *)
Inductive sop : Type :=
| SNew                          (* Vector v; *)
| SOf (xs : list A)             (* Vector v{x...}; *)
| SCopy (i : nat)               (* Vector v(v_i); *)
| SMove (i : nat)               (* Vector v(move(v_i)); *)
| SMoveAssign (i j : nat)       (* v_i = move(v_j); i <> j *)
| SOp (i : nat) (o : vop).      (* an operation on v_i *)

(** One statement; the vectors are kept in order of construction.  A statement about a vector
    that does not exist is outside the language and is an error of the program text. *)
Definition sys_step (o : sop) (vs : list vec) (m : mem A) : res (list vec * mem A) :=
  match o with
  | SNew => Ok (vs ++ [vec_new], m)
  | SOf xs => let* (v, m1) := vec_of_list xs m in Ok (vs ++ [v], m1)
  | SCopy i => let* w := get vs i in let* (v, m1) := vec_copy w m in Ok (vs ++ [v], m1)
  | SMove i => let* w := get vs i in
      let (v, w') := vec_move w in Ok (<[i := w']> vs ++ [v], m)
  | SMoveAssign i j =>
      if decide (i = j) then Ok (vs, m)
      else
        let* v := get vs i in let* w := get vs j in
        let* (v', w', m1) := vec_move_assign v w m in
        Ok (<[i := v']> (<[j := w']> vs), m1)
  | SOp i o =>
      let* v := get vs i in
      let* (v', m1) := vec_step o v m in Ok (<[i := v']> vs, m1)
  end.

(** A throwing statement leaves everything as it was and the program goes on. *)
Fixpoint sys_run (p : list sop) (vs : list vec) (m : mem A) : res (list vec * mem A) :=
  match p with
  | [] => Ok (vs, m)
  | o :: p' =>
      match sys_step o vs m with
      | Ok (vs1, m1) => sys_run p' vs1 m1
      | Throw => sys_run p' vs m
      | UB k => UB k
      | Diverge => Diverge
      end
  end.

(** The end of the program: every vector is destroyed. *)
Fixpoint sys_end (vs : list vec) (m : mem A) : res (mem A) :=
  match vs with
  | [] => Ok m
  | v :: vs' => let* m1 := vec_destroy v m in sys_end vs' m1
  end.
End vector.
