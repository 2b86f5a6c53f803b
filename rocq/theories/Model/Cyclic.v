(** Model of /repo/include/efp/cyclic.hpp (Vcb and Vcq).

    The inline [RawStorage<A, 2n> _buffer] of an object is a memory block; the pointers
    [_data], [_read], [_write] into it are offsets.  [E] describes the element type,
    [d] is the value of [A{}]. *)
From Verif Require Import Base.Cpp Base.Mem.

Section cyclic.
Context {A : Type} (E : ety A) (n : nat).

(** ** Vcb, cyclic.hpp:9-121 *)
Record vcb : Type := Vcb { cb_blk : nat; cb_data : nat }.

(** Vcb(), lines 19-24. *)
Definition vcb_new (d : A) (m : mem A) : res (vcb * mem A) :=
  let (b, m1) := alloc m (n * 2) in
  let* m2 := for_up (n * 2) 0 (fun i m => construct E m b i d) m1 in
  Ok (Vcb b 0, m2).

(** Vcb(const Vcb&), lines 26-31. *)
Definition vcb_copy (other : vcb) (m : mem A) : res (vcb * mem A) :=
  let (b, m1) := alloc m (n * 2) in
  let* m2 := for_up (n * 2) 0 (fun i m =>
    let* x := read m (cb_blk other) i in construct E m b i x) m1 in
  Ok (Vcb b (cb_data other), m2).

(** operator=(const Vcb&), lines 33-40. *)
Definition vcb_copy_assign (self other : vcb) (m : mem A) : res (vcb * mem A) :=
  let b := cb_blk self in
  let* m2 := for_up (n * 2) 0 (fun i m =>
    let* m := destroy E m b i in
    let* x := read m (cb_blk other) i in construct E m b i x) m in
  Ok (Vcb b (cb_data other), m2).

(** Vcb(Vcb&&), lines 42-48. *)
Definition vcb_move (other : vcb) (m : mem A) : res (vcb * mem A) :=
  let (b, m1) := alloc m (n * 2) in
  let* m2 := for_up (n * 2) 0 (fun i m =>
    let* (x, m) := move_out E m (cb_blk other) i in construct E m b i x) m1 in
  Ok (Vcb b (cb_data other), m2).

(** operator=(Vcb&&), lines 50-58. The by-value result is a temporary copy of *this that
    is destroyed at once and is not modelled. *)
Definition vcb_move_assign (self other : vcb) (m : mem A) : res (vcb * mem A) :=
  let b := cb_blk self in
  let* m2 := for_up (n * 2) 0 (fun i m =>
    let* m := destroy E m b i in
    let* (x, m) := move_out E m (cb_blk other) i in construct E m b i x) m in
  Ok (Vcb b (cb_data other), m2).

(** ~Vcb, lines 60-64, followed by the release of the object's storage. *)
Definition vcb_destroy (self : vcb) (m : mem A) : res (mem A) :=
  let* m1 := for_up (n * 2) 0 (fun i m => destroy E m (cb_blk self) i) m in
  free E m1 (cb_blk self).

(** operator[], lines 66-72 (also nth): read and write through the reference. *)
Definition vcb_get (self : vcb) (index : nat) (m : mem A) : res A :=
  read m (cb_blk self) (cb_data self + index).
Definition vcb_set (self : vcb) (index : nat) (x : A) (m : mem A) : res (mem A) :=
  assign E m (cb_blk self) (cb_data self + index) x.

(** push_back(A value), lines 74-83. *)
Definition vcb_push (self : vcb) (value : A) (m : mem A) : res (vcb * mem A) :=
  let b := cb_blk self in
  let p := cb_data self in
  let* m := destroy E m b p in
  let* m := destroy E m b (p + n) in
  let* m := construct E m b p value in
  let* m := construct E m b (p + n) value in
  let p1 := p + 1 in
  Ok (Vcb b (p1 - n * (if decide (p1 = n) then 1 else 0)), m).

(** size, line 85; begin/end, lines 101-115, as offsets. *)
Definition vcb_size (self : vcb) : nat := n.
Definition vcb_begin (self : vcb) : nat := cb_data self.
Definition vcb_end (self : vcb) : nat := cb_data self + n.

(** Reading the range [from, to) of a block by pointer increments: what a range-for or
    fmt::join over begin()/end() does (format.hpp). *)
Definition read_range (b from to : nat) (m : mem A) : res (list A) :=
  for_up (to - from) from (fun i acc => let* x := read m b i in Ok (acc ++ [x])) [].

Definition vcb_iter (self : vcb) (m : mem A) : res (list A) :=
  read_range (cb_blk self) (vcb_begin self) (vcb_end self) m.

(** ** Vcq, cyclic.hpp:164-349 *)
Record vcq : Type := Vcq { q_blk : nat; q_size : nat; q_read : nat; q_write : nat }.

(** Vcq(), lines 174-179. *)
Definition vcq_new (m : mem A) : vcq * mem A :=
  let (b, m1) := alloc m (2 * n) in (Vcq b 0 0 0, m1).

(** The slot expression used throughout (e.g. lines 184-185). *)
Definition slot (read_offset i : nat) : nat :=
  if decide (read_offset + i < n) then read_offset + i else read_offset + i - n.

(** The construction loop shared by the copy constructor (lines 181-193) and copy
    assignment (lines 205-212): slot j of this is built from other._buffer[i]. *)
Definition vcq_copy_loop (b : nat) (other : vcq) (m : mem A) : res (mem A) :=
  for_up (q_size other) 0 (fun i m =>
    let j := slot (q_read other) i in
    let* x := read m (q_blk other) i in
    let* m := construct E m b j x in
    let* y := read m (q_blk other) i in
    construct E m b (n + j) y) m.

(** Same with moves (lines 219-228, 244-251): other._buffer[i] is moved from twice. *)
Definition vcq_move_loop (b : nat) (other : vcq) (m : mem A) : res (mem A) :=
  for_up (q_size other) 0 (fun i m =>
    let j := slot (q_read other) i in
    let* (x, m) := move_out E m (q_blk other) i in
    let* m := construct E m b j x in
    let* (y, m) := move_out E m (q_blk other) i in
    construct E m b (n + j) y) m.

(** The destruction loop (lines 196-202, 235-241, 258-265). *)
Definition vcq_destroy_loop (self : vcq) (m : mem A) : res (mem A) :=
  for_up (q_size self) 0 (fun i m =>
    let j := slot (q_read self) i in
    let* m := destroy E m (q_blk self) j in
    destroy E m (q_blk self) (n + j)) m.

(** Vcq(const Vcq&), lines 181-193. *)
Definition vcq_copy (other : vcq) (m : mem A) : res (vcq * mem A) :=
  let (b, m1) := alloc m (2 * n) in
  let* m2 := vcq_copy_loop b other m1 in
  Ok (Vcq b (q_size other) (q_read other) (q_write other), m2).

(** operator=(const Vcq&), lines 195-217. *)
Definition vcq_copy_assign (self other : vcq) (m : mem A) : res (vcq * mem A) :=
  let* m1 := vcq_destroy_loop self m in
  let* m2 := vcq_copy_loop (q_blk self) other m1 in
  Ok (Vcq (q_blk self) (q_size other) (q_read other) (q_write other), m2).

(** Vcq(Vcq&&), lines 219-232. *)
Definition vcq_move (other : vcq) (m : mem A) : res (vcq * mem A) :=
  let (b, m1) := alloc m (2 * n) in
  let* m2 := vcq_move_loop b other m1 in
  Ok (Vcq b (q_size other) (q_read other) (q_write other), m2).

(** operator=(Vcq&&), lines 234-256. *)
Definition vcq_move_assign (self other : vcq) (m : mem A) : res (vcq * mem A) :=
  let* m1 := vcq_destroy_loop self m in
  let* m2 := vcq_move_loop (q_blk self) other m1 in
  Ok (Vcq (q_blk self) (q_size other) (q_read other) (q_write other), m2).

(** ~Vcq, lines 258-266, and release of the object's storage. *)
Definition vcq_destroy (self : vcq) (m : mem A) : res (mem A) :=
  let* m1 := vcq_destroy_loop self m in
  free E m1 (q_blk self).

(** operator[], lines 268-274. *)
Definition vcq_get (self : vcq) (index : nat) (m : mem A) : res A :=
  read m (q_blk self) (q_read self + index).
Definition vcq_set (self : vcq) (index : nat) (x : A) (m : mem A) : res (mem A) :=
  assign E m (q_blk self) (q_read self + index) x.

(** push_back(const A&), lines 276-294, for an argument that lives outside the queue. *)
Definition vcq_push (self : vcq) (value : A) (m : mem A) : res (vcq * mem A) :=
  let b := q_blk self in
  let w := q_write self in
  let* m := (if decide (q_size self = n) then
               let* m := destroy E m b w in destroy E m b (w + n)
             else Ok m) in
  let* m := construct E m b w value in
  let* m := construct E m b (w + n) value in
  let w1 := w + 1 in
  let w2 := w1 - n * (if decide (w1 = n) then 1 else 0) in
  if decide (q_size self < n) then
    Ok (Vcq b (q_size self + 1) (q_read self) w2, m)
  else
    let r1 := q_read self + 1 in
    Ok (Vcq b (q_size self) (r1 - n * (if decide (r1 = n) then 1 else 0)) w2, m).

(** push_back(q[index]): the argument is a reference to an element of the queue itself,
    so it is read when the new elements are constructed (lines 282-283). *)
Definition vcq_push_own (self : vcq) (index : nat) (m : mem A) : res (vcq * mem A) :=
  let b := q_blk self in
  let w := q_write self in
  let* m := (if decide (q_size self = n) then
               let* m := destroy E m b w in destroy E m b (w + n)
             else Ok m) in
  let* x := read m b (q_read self + index) in
  let* m := construct E m b w x in
  let* y := read m b (q_read self + index) in
  let* m := construct E m b (w + n) y in
  let w1 := w + 1 in
  let w2 := w1 - n * (if decide (w1 = n) then 1 else 0) in
  if decide (q_size self < n) then
    Ok (Vcq b (q_size self + 1) (q_read self) w2, m)
  else
    let r1 := q_read self + 1 in
    Ok (Vcq b (q_size self) (r1 - n * (if decide (r1 = n) then 1 else 0)) w2, m).

(** pop_front, lines 298-309.  On an empty queue [_size--] wraps; the code documents this
    as undefined and the model reports the uninitialised read of [*_read], or, if that
    cell happens to be live, out-of-range. *)
Definition vcq_pop (self : vcq) (m : mem A) : res (A * vcq * mem A) :=
  let b := q_blk self in
  let r := q_read self in
  let* (value, m) := move_out E m b r in
  let* m := destroy E m b r in
  let* m := destroy E m b (r + n) in
  if decide (q_size self = 0) then UB OutOfBounds else
  let r1 := r + 1 in
  Ok (value, Vcq b (q_size self - 1) (r1 - n * (if decide (r1 = n) then 1 else 0)) (q_write self), m).

(** size, empty, lines 311-317. *)
Definition vcq_size (self : vcq) : nat := q_size self.
Definition vcq_empty (self : vcq) : bool := bool_decide (q_size self = 0).

(** begin, end, lines 327-341. *)
Definition vcq_begin (self : vcq) : nat := q_read self.
Definition vcq_end (self : vcq) : nat :=
  if decide (q_read self < q_write self) then q_write self else q_write self + n.
Definition vcq_iter (self : vcq) (m : mem A) : res (list A) :=
  read_range (q_blk self) (vcq_begin self) (vcq_end self) m.

(** ** Histories *)
(** Any sequence of pushes on a Vcb. *)
Fixpoint vcb_pushes (self : vcb) (vs : list A) (m : mem A) : res (vcb * mem A) :=
  match vs with
  | [] => Ok (self, m)
  | v :: vs' => let* (s, m1) := vcb_push self v m in vcb_pushes s vs' m1
  end.

Inductive qop : Type := QPush (a : A) | QPop.

(** Any sequence of pushes and pops on a Vcq; returns the popped values. *)
Fixpoint vcq_run (ops : list qop) (self : vcq) (m : mem A) : res (list A * vcq * mem A) :=
  match ops with
  | [] => Ok ([], self, m)
  | QPush a :: ops' => let* (s, m1) := vcq_push self a m in vcq_run ops' s m1
  | QPop :: ops' =>
      let* (v, s, m1) := vcq_pop self m in
      let* (vs, s', m2) := vcq_run ops' s m1 in Ok (v :: vs, s', m2)
  end.
End cyclic.
