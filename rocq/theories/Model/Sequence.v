(** Model of Array, ArrVec and the views of /repo/include/efp/sequence.hpp.

    The in-object storage [_data] (RawStorage) is a block; it appears with the object and is
    released after the destructor.  Sizes are unbounded naturals; constructors of elements do
    not throw.  Throws precede every write, except in the initializer-list constructors,
    where no object results. *)
From Verif Require Import Base.Cpp Base.Mem Model.Vector.

Section sequence.
Context {A : Type} (E : ety A).

(** for (i = 0; i < n; ++i) (_data + i)->~Element() *)
Definition destroy_cells (b n : nat) (m : mem A) : res (mem A) :=
  for_up n 0 (fun i m => destroy E m b i) m.

(** ** Array<A, n>, lines 33-187.  An Array is its block. *)
Section array.
Context (n : nat).

(** Array(), lines 53-58; [d] is Element{}. *)
Definition arr_new (d : A) (m : mem A) : res (nat * mem A) :=
  let (b, m1) := alloc m n in
  let* m2 := for_up n 0 (fun i m => construct E m b i d) m1 in Ok (b, m2).

(** Array(const Array&), lines 60-64. *)
Definition arr_copy (other : nat) (m : mem A) : res (nat * mem A) :=
  let (b, m1) := alloc m n in
  let* m2 := for_up n 0 (fun i m => let* x := read m other i in construct E m b i x) m1 in
  Ok (b, m2).

(** operator=(const Array&), lines 66-74, for this != &other. *)
Definition arr_copy_assign (self other : nat) (m : mem A) : res (mem A) :=
  for_up n 0 (fun i m =>
    let* m := destroy E m self i in
    let* x := read m other i in construct E m self i x) m.

(** Array(Array&&), lines 76-80. *)
Definition arr_move (other : nat) (m : mem A) : res (nat * mem A) :=
  let (b, m1) := alloc m n in
  let* m2 := for_up n 0 (fun i m =>
    let* (x, m) := move_out E m other i in construct E m b i x) m1 in
  Ok (b, m2).

(** operator=(Array&&), lines 82-90, for this != &other. *)
Definition arr_move_assign (self other : nat) (m : mem A) : res (mem A) :=
  for_up n 0 (fun i m =>
    let* m := destroy E m self i in
    let* (x, m) := move_out E m other i in construct E m self i x) m.

(** ~Array(), lines 92-96, and the end of the storage. *)
Definition arr_destroy (self : nat) (m : mem A) : res (mem A) :=
  let* m1 := destroy_cells self n m in free E m1 self.

(** Array(InitializerList), lines 98-107. *)
Definition arr_of_list (xs : list A) (m : mem A) : res (nat * mem A) :=
  if decide (length xs <> n) then Throw
  else
    let (b, m1) := alloc m n in
    let* m2 := for_up (length xs) 0 (fun i m => let* x := get xs i in construct E m b i x) m1 in
    Ok (b, m2).

(** operator[], lines 109-115; begin/end, 151-165. *)
Definition arr_get (self i : nat) (m : mem A) : res A := read m self i.
Definition arr_set (self i : nat) (x : A) (m : mem A) : res (mem A) := assign E m self i x.
Definition arr_iter (self : nat) (m : mem A) : res (list A) :=
  for_up n 0 (fun i acc => let* x := read m self i in Ok (acc ++ [x])) [].

(** operator==, lines 117-124. *)
Definition arr_eq (ne : A -> A -> bool) (self other : nat) (m : mem A) : res bool :=
  loop (S n) (fun i =>
    if decide (i < n) then
      let* x := read m self i in
      let* y := read m other i in
      if ne x y then Ok (inr false) else Ok (inl (S i))
    else Ok (inr true)) 0.
End array.

(** ** ArrVec<A, cap>, lines 230-478 *)
Record arrvec : Type := AV { av_blk : nat; av_size : nat }.

Section arrvec.
Context (cap : nat).

(** ArrVec(), lines 250-252. *)
Definition av_new (m : mem A) : arrvec * mem A :=
  let (b, m1) := alloc m cap in (AV b 0, m1).

(** ArrVec(const ArrVec&), lines 254-258. *)
Definition av_copy (other : arrvec) (m : mem A) : res (arrvec * mem A) :=
  let (b, m1) := alloc m cap in
  let* m2 := for_up (av_size other) 0 (fun i m =>
    let* x := read m (av_blk other) i in construct E m b i x) m1 in
  Ok (AV b (av_size other), m2).

(** operator=(const ArrVec&), lines 260-273, for this != &other. *)
Definition av_copy_assign (self other : arrvec) (m : mem A) : res (arrvec * mem A) :=
  let* m1 := destroy_cells (av_blk self) (av_size self) m in
  let* m2 := for_up (av_size other) 0 (fun i m =>
    let* x := read m (av_blk other) i in construct E m (av_blk self) i x) m1 in
  Ok (AV (av_blk self) (av_size other), m2).

(** ArrVec(ArrVec&&), lines 275-280: (new object, what other becomes). *)
Definition av_move (other : arrvec) (m : mem A) : res (arrvec * arrvec * mem A) :=
  let (b, m1) := alloc m cap in
  let* m2 := for_up (av_size other) 0 (fun i m =>
    let* (x, m) := move_out E m (av_blk other) i in construct E m b i x) m1 in
  Ok (AV b (av_size other), AV (av_blk other) 0, m2).

(** operator=(ArrVec&&), lines 282-299, for this != &other. *)
Definition av_move_assign (self other : arrvec) (m : mem A) : res (arrvec * arrvec * mem A) :=
  let* m1 := destroy_cells (av_blk self) (av_size self) m in
  let* m2 := for_up (av_size other) 0 (fun i m =>
    let* (x, m) := move_out E m (av_blk other) i in construct E m (av_blk self) i x) m1 in
  Ok (AV (av_blk self) (av_size other), AV (av_blk other) 0, m2).

(** ~ArrVec(), lines 301-305, and the end of the storage. *)
Definition av_destroy (self : arrvec) (m : mem A) : res (mem A) :=
  let* m1 := destroy_cells (av_blk self) (av_size self) m in free E m1 (av_blk self).

(** ArrVec(const ArrVec<Element, k>&), lines 307-313: all k cells of the source are copied. *)
Definition av_convert (k : nat) (other : arrvec) (m : mem A) : res (arrvec * mem A) :=
  let (b, m1) := alloc m cap in
  let* m2 := for_up k 0 (fun i m =>
    let* x := read m (av_blk other) i in construct E m b i x) m1 in
  Ok (AV b k, m2).

(** ArrVec(InitializerList), lines 315-326. *)
Definition av_of_list (xs : list A) (m : mem A) : res (arrvec * mem A) :=
  if decide (cap < length xs) then Throw
  else
    let (b, m1) := alloc m cap in
    let* m2 := for_up (length xs) 0 (fun i m => let* x := get xs i in construct E m b i x) m1 in
    Ok (AV b (length xs), m2).

(** operator[], lines 328-334; begin/end, 443-457. *)
Definition av_get (self : arrvec) (i : nat) (m : mem A) : res A := read m (av_blk self) i.
Definition av_set (self : arrvec) (i : nat) (x : A) (m : mem A) : res (mem A) :=
  assign E m (av_blk self) i x.
Definition av_iter (self : arrvec) (m : mem A) : res (list A) :=
  for_up (av_size self) 0 (fun i acc => let* x := read m (av_blk self) i in Ok (acc ++ [x])) [].

(** operator==, lines 336-348. *)
Definition av_eq (ne : A -> A -> bool) (self other : arrvec) (m : mem A) : res bool :=
  if decide (av_size self <> av_size other) then Ok false
  else arr_eq (av_size self) ne (av_blk self) (av_blk other) m.

(** resize, lines 358-364: only the size changes. *)
Definition av_resize (self : arrvec) (len : nat) : res arrvec :=
  if decide (cap < len) then Throw else Ok (AV (av_blk self) len).

(** push_back, lines 373-387, for an argument outside the object. *)
Definition av_push (self : arrvec) (value : A) (m : mem A) : res (arrvec * mem A) :=
  if decide (cap <= av_size self) then Throw
  else
    let* m1 := construct E m (av_blk self) (av_size self) value in
    Ok (AV (av_blk self) (av_size self + 1), m1).

(** The shifting loop of insert, lines 396-399: k = i - 1. *)
Definition av_shift (b size index : nat) (m : mem A) : res (mem A) :=
  for_down size index (fun k m =>
    let* (x, m) := move_out E m b k in
    let* m := construct E m b (S k) x in
    destroy E m b k) m.

(** insert, lines 389-404, for an argument outside the object. *)
Definition av_insert (self : arrvec) (index : nat) (value : A) (m : mem A) : res (arrvec * mem A) :=
  if decide (av_size self < index \/ av_size self = cap) then Throw
  else
    let* m1 := av_shift (av_blk self) (av_size self) index m in
    let* m2 := construct E m1 (av_blk self) index value in
    Ok (AV (av_blk self) (av_size self + 1), m2).

(** insert(index, v[j]): the argument refers to cell j and is read after the shift (line 401). *)
Definition av_insert_own (self : arrvec) (index j : nat) (m : mem A) : res (arrvec * mem A) :=
  if decide (av_size self < index \/ av_size self = cap) then Throw
  else
    let* m1 := av_shift (av_blk self) (av_size self) index m in
    let* value := read m1 (av_blk self) j in
    let* m2 := construct E m1 (av_blk self) index value in
    Ok (AV (av_blk self) (av_size self + 1), m2).

(** pop_back, lines 406-412. *)
Definition av_pop (self : arrvec) (m : mem A) : res (arrvec * mem A) :=
  if decide (av_size self = 0) then Throw
  else
    let* m1 := destroy E m (av_blk self) (av_size self - 1) in
    Ok (AV (av_blk self) (av_size self - 1), m1).

(** clear, lines 414-419. *)
Definition av_clear (self : arrvec) (m : mem A) : res (arrvec * mem A) :=
  let* m1 := destroy_cells (av_blk self) (av_size self) m in Ok (AV (av_blk self) 0, m1).

(** erase, lines 421-433. *)
Definition av_erase (self : arrvec) (index : nat) (m : mem A) : res (arrvec * mem A) :=
  if decide (av_size self <= index) then Throw
  else
    let b := av_blk self in
    let* m1 := destroy E m b index in
    let* m2 := for_up (av_size self - 1 - index) index (fun i m =>
      let* (x, m) := move_out E m b (i + 1) in
      let* m := construct E m b i x in
      destroy E m b (i + 1)) m1 in
    Ok (AV b (av_size self - 1), m2).

(** ** Histories *)
Inductive avop : Type :=
| APush (a : A) | APop | AInsert (i : nat) (a : A) | AErase (i : nat) | AClear | ASet (i : nat) (a : A).

Definition av_step (o : avop) (self : arrvec) (m : mem A) : res (arrvec * mem A) :=
  match o with
  | APush a => av_push self a m
  | APop => av_pop self m
  | AInsert i a => av_insert self i a m
  | AErase i => av_erase self i m
  | AClear => av_clear self m
  | ASet i a => let* m1 := av_set self i a m in Ok (self, m1)
  end.

(** The flags say which operations threw; after a throw the object is as it was. *)
Fixpoint av_run (ops : list avop) (self : arrvec) (m : mem A) : res (list bool * arrvec * mem A) :=
  match ops with
  | [] => Ok ([], self, m)
  | o :: ops' =>
      match av_step o self m with
      | Ok (s, m1) => let* (ts, s', m2) := av_run ops' s m1 in Ok (false :: ts, s', m2)
      | Throw => let* (ts, s', m2) := av_run ops' self m in Ok (true :: ts, s', m2)
      | UB k => UB k
      | Diverge => Diverge
      end
  end.
End arrvec.

(** insert(index, v[j]) of Vector, lines 816-832: the argument refers to cell j of the block
    the vector had on entry and is read after growth and shift (line 830). *)
Definition vec_insert_own (self : vec) (index j : nat) (m : mem A) : res (vec * mem A) :=
  if decide (v_size self < index) then Throw
  else
    let* (s, m1) := (if decide (v_cap self <= v_size self + 1)
                     then vec_reserve E self (if decide (v_cap self = 0) then 2 else 2 * v_cap self) m
                     else Ok (self, m)) in
    let* m2 := for_down (v_size s) index (fun k m =>
      let* (x, m) := pmove_out E m (v_data s) k in passign E m (v_data s) (S k) x) m1 in
    let* value := pread m2 (v_data self) j in
    let* m3 := pconstruct E m2 (v_data s) index value in
    Ok (Vec (v_data s) (v_size s + 1) (v_cap s), m3).

(** ** Views, lines 1012-1360 *)

(** A const Element*: null, or cell [off] of block [b]. *)
Inductive cptr : Type := CNull | CAt (b off : nat).

(** A view's fields; [w_cap] is [None] when the field was never initialised.  For ArrayView
    size and capacity are the template argument, for ArrVecView the capacity is. *)
Record view : Type := View { w_data : cptr; w_size : nat; w_cap : option nat }.

(** ArrayView(const Element*, size_t) with ct_size = n, lines 1020-1027; the second argument
    is ignored. *)
Definition arrview_new (n : nat) (data : cptr) : res view :=
  match data with
  | CNull => if decide (0 < n) then Throw else Ok (View CNull n (Some n))
  | _ => Ok (View data n (Some n))
  end.

(** ArrVecView(const Element*, size_t) with ct_capacity = cap, lines 1145-1153. *)
Definition avview_new (cap : nat) (data : cptr) (size : nat) : res view :=
  match data with
  | CNull => if decide (0 < size) then Throw else Ok (View CNull size (Some cap))
  | _ => Ok (View data size (Some cap))
  end.

(** VectorViewBase(const Element*, size_t), lines 1276-1285. *)
Definition vview_new (data : cptr) (size : nat) : res view :=
  match data with
  | CNull => if decide (0 < size) then Throw else Ok (View CNull size (Some size))
  | _ => Ok (View data size (Some size))
  end.

(** The default constructors, lines 1018, 1143, 1274. *)
Definition arrview_default (n : nat) : view := View CNull n (Some n).
Definition avview_default (cap : nat) : view := View CNull 0 (Some cap).
Definition vview_default : view := View CNull 0 (Some 0).

(** ArrVecView(const ArrayView&), line 1167. *)
Definition avview_of_arrview (cap : nat) (v : view) : view := View (w_data v) (w_size v) (Some cap).

(** VectorViewBase(const ArrayView&), lines 1299-1301, and (const ArrVecView&), 1303-1306:
    [_capacity] is not initialised. *)
Definition vview_of (v : view) : view := View (w_data v) (w_size v) None.

(** operator[], lines 1029-1035, 1169-1175, 1308-1314. *)
Definition view_get (v : view) (i : nat) (m : mem A) : res A :=
  match w_data v with CNull => UB NullDeref | CAt b off => read m b (off + i) end.

(** begin/end, lines 1068-1082, 1201-1215, 1340-1354. *)
Definition view_iter (v : view) (m : mem A) : res (list A) :=
  for_up (w_size v) 0 (fun i acc => let* x := view_get v i m in Ok (acc ++ [x])) [].

Definition cptr_eqb (p q : cptr) : bool :=
  match p, q with
  | CNull, CNull => true
  | CAt b o, CAt b' o' => Nat.eqb b b' && Nat.eqb o o'
  | _, _ => false
  end.

(** operator== of ArrayView, lines 1037-1039, and ArrVecView, 1177-1179. *)
Definition arrview_eq (v w : view) : bool := cptr_eqb (w_data v) (w_data w).
Definition avview_eq (v w : view) : bool :=
  cptr_eqb (w_data v) (w_data w) && Nat.eqb (w_size v) (w_size w).
(** operator== of VectorViewBase, lines 1316-1319. *)
Definition vview_eq (v w : view) : res bool :=
  if cptr_eqb (w_data v) (w_data w) && Nat.eqb (w_size v) (w_size w) then
    match w_cap v, w_cap w with
    | Some c, Some c' => Ok (Nat.eqb c c')
    | _, _ => UB IndetPtr
    end
  else Ok false.
End sequence.
