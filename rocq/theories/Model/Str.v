(** Model of String and StringView, /repo/include/efp/string.hpp.

    String is Vector<char>: VectorBase (Model/Vector.v) plus the functions below.  Characters
    are naturals, the terminator is 0; [chr] is their (trivial) element type.  A [const Char*]
    argument points to a buffer outside the string, given as the list of its characters;
    reading past it is undefined.  Traits is std::char_traits (sequence.hpp:945-951).
    Not modelled: the allocator mismatch of Vector(size_t, Char), which allocates with
    operator new[] but releases through the allocator; the constructor from two iterators
    (lines 64-81), which names members that do not exist; conversion to std::string. *)
From Verif Require Import Base.Cpp Base.Mem Model.Vector Model.Sequence.

Definition chr : ety nat := Ety true (fun c => c).

(** Traits::length on a reader: position of the first terminator. *)
Definition char_length (fuel : nat) (src : nat -> res nat) : res nat :=
  loop fuel (fun i =>
    let* c := src i in
    if decide (c = 0) then Ok (inr i) else Ok (inl (S i))) 0.

(** A buffer outside the string, as a reader; [S (length buf)] steps are enough for it. *)
Definition foreign (buf : list nat) : mem nat -> nat -> res nat := fun _ i => get buf i.

(** Traits::compare(p, q, n), for readers [p] and [q]: sign of the first difference among n
    characters.  Simplification in favour of the code: characters after the first difference
    are not read. *)
Definition char_compare (p q : nat -> res nat) (n : nat) : res Z :=
  loop (S n) (fun i =>
    if decide (i < n) then
      let* x := p i in
      let* y := q i in
      if decide (x < y) then Ok (inr (-1)%Z)
      else if decide (y < x) then Ok (inr 1%Z)
      else Ok (inl (S i))
    else Ok (inr 0%Z)) 0.

(** _memcpy of [n] characters into block [b] at [at_], from a reader (cpp_core.hpp:24-31). *)
Definition copy_in (src : nat -> res nat) (n b at_ : nat) (m : mem nat) : res (mem nat) :=
  for_up n 0 (fun i m => let* c := src i in construct chr m b (at_ + i) c) m.

(** Vector(const Char* s, size_t count), lines 38-44, reading through [src]. *)
Definition str_new (src : nat -> res nat) (count : nat) (m : mem nat) : res (vec * mem nat) :=
  let (b, m1) := alloc m (count + 1) in
  let* m2 := copy_in src count b 0 m1 in
  Ok (Vec (Blk b) count (count + 1), m2).

(** Vector(const Char* c_str), lines 30-36. *)
Definition str_of_cstr (buf : list nat) (m : mem nat) : res (vec * mem nat) :=
  let* n := char_length (S (length buf)) (get buf) in str_new (get buf) n m.

(** Vector(size_t, Char), lines 46-53: capacity is exactly the size. *)
Definition str_fill (n c : nat) (m : mem nat) : res (vec * mem nat) :=
  let (b, m1) := alloc m n in
  let* m2 := for_up n 0 (fun i m => assign chr m b i c) m1 in
  Ok (Vec (Blk b) n n, m2).

(** operator==(const Char* ), lines 88-103, for a non-null argument. *)
Definition str_eq_cstr (self : vec) (buf : list nat) (m : mem nat) : res bool :=
  match v_data self with
  | Null => Ok false
  | Indet => UB IndetPtr
  | Blk b =>
      let* n := char_length (S (length buf)) (get buf) in
      if decide (v_size self <> n) then Ok false
      else
        let* c := char_compare (fun i => pread m (v_data self) i) (get buf) (v_size self) in
        Ok (bool_decide (c = 0%Z))
  end.

(** at, lines 105-111; front, 113-115; back, 117-119. *)
Definition str_at (self : vec) (pos : nat) (m : mem nat) : res nat :=
  if decide (v_size self <= pos) then Throw else pread m (v_data self) pos.
Definition str_front (self : vec) (m : mem nat) : res nat := pread m (v_data self) 0.
Definition str_back (self : vec) (m : mem nat) : res nat := pread m (v_data self) (v_size self - 1).

(** operator+=, lines 121-127, for another string. *)
Definition str_plus (self other : vec) (m : mem nat) : res (vec * mem nat) :=
  for_up (v_size other) 0 (fun i '(s, m) =>
    let* c := pread m (v_data other) i in vec_push chr s c m) (self, m).

(** s += s: the bound is the growing size, the argument of push_back refers into s. *)
Definition str_plus_self (fuel : nat) (self : vec) (m : mem nat) : res (vec * mem nat) :=
  loop fuel (fun '(i, s, m) =>
    if decide (i < v_size s) then
      let* (s, m) := vec_push_own chr s i m in Ok (inl (S i, s, m))
    else Ok (inr (s, m))) (0, self, m).

(** push_back(const Element&), sequence.hpp:772-780, of a character reached through [src];
    it is read after the growth step, as in [vec_push_own]. *)
Definition push_ref (self : vec) (src : mem nat -> res nat) (m : mem nat) : res (vec * mem nat) :=
  let* (s, m1) := vec_grow chr self m in
  let* c := src m1 in
  let* m2 := pconstruct chr m1 (v_data s) (v_size s) c in
  Ok (Vec (v_data s) (v_size s + 1) (v_cap s), m2).

(** append(const Char* ), lines 129-137. *)
Definition append_from (fuel : nat) (src : mem nat -> nat -> res nat) (self : vec) (m : mem nat) : res (vec * mem nat) :=
  let* len := char_length fuel (src m) in
  for_up len 0 (fun i '(s, m) => push_ref s (fun m => src m i) m) (self, m).
Definition str_append (self : vec) (buf : list nat) (m : mem nat) : res (vec * mem nat) :=
  append_from (S (length buf)) (foreign buf) self m.

(** append(size_t, Char), lines 139-145. *)
Definition str_append_n (self : vec) (n c : nat) (m : mem nat) : res (vec * mem nat) :=
  for_up n 0 (fun _ '(s, m) => vec_push chr s c m) (self, m).

(** assign, lines 147-150 and 152-155. *)
Definition assign_from (fuel : nat) (src : mem nat -> nat -> res nat) (self : vec) (m : mem nat) : res (vec * mem nat) :=
  let* (s, m) := vec_clear chr self m in append_from fuel src s m.
Definition str_assign (self : vec) (buf : list nat) (m : mem nat) : res (vec * mem nat) :=
  assign_from (S (length buf)) (foreign buf) self m.
Definition str_assign_n (self : vec) (n c : nat) (m : mem nat) : res (vec * mem nat) :=
  let* (s, m) := vec_clear chr self m in str_append_n s n c m.

(** The body shared by both inserts: shift by [len], then copy [len] characters
    (lines 165-175 and 186-196); in the shift k = i - 1. *)
Definition str_open (s : vec) (pos len : nat) (src : mem nat -> nat -> res nat) (m : mem nat) : res (vec * mem nat) :=
  let* m1 := for_down (v_size s) pos (fun k m =>
    let* c := pread m (v_data s) k in passign chr m (v_data s) (k + len) c) m in
  let* m2 := for_up len 0 (fun i m =>
    let* c := src m i in passign chr m (v_data s) (pos + i) c) m1 in
  Ok (Vec (v_data s) (v_size s + len) (v_cap s), m2).

(** insert(size_t, const Char* ), lines 157-176. *)
Definition insert_from (fuel : nat) (src : mem nat -> nat -> res nat) (self : vec) (pos : nat) (m : mem nat) : res (vec * mem nat) :=
  if decide (v_size self < pos) then Throw
  else
    let* len := char_length fuel (src m) in
    let* (s, m) := vec_reserve chr self (v_size self + len) m in
    str_open s pos len src m.
Definition str_insert (self : vec) (pos : nat) (buf : list nat) (m : mem nat) : res (vec * mem nat) :=
  insert_from (S (length buf)) (foreign buf) self pos m.

(** insert(size_t, const Char*, size_t), lines 178-197. *)
Definition str_insert_n (self : vec) (pos : nat) (buf : list nat) (n : nat) (m : mem nat) : res (vec * mem nat) :=
  if decide (v_size self < pos) then Throw
  else
    let* (s, m) := vec_reserve chr self (v_size self + n + 1) m in
    str_open s pos n (foreign buf) m.

(** substr, lines 203-213. *)
Definition str_substr (self : vec) (pos len : nat) (m : mem nat) : res (vec * mem nat) :=
  if decide (v_size self < pos) then Throw
  else
    let len := if decide (v_size self - pos < len) then v_size self - pos else len in
    str_new (fun i => pread m (v_data self) (pos + i)) len m.

(** copy, lines 217-228: (characters written to dest, returned count). *)
Definition str_copy_out (self : vec) (count pos : nat) (m : mem nat) : res (list nat * nat) :=
  if decide (v_size self < pos) then Throw
  else
    let count := if decide (v_size self - pos < count) then v_size self - pos else count in
    let* cs := for_up count 0 (fun i acc =>
      let* c := pread m (v_data self) (pos + i) in Ok (acc ++ [c])) [] in
    Ok (cs, count).

(** compare(const Vector&), lines 232-234. *)
Definition str_compare (self other : vec) (m : mem nat) : res Z :=
  char_compare (fun i => pread m (v_data self) i) (fun i => pread m (v_data other) i) (v_size self).

(** compare(pos, len, other), lines 236-246. *)
Definition str_compare_at (self : vec) (pos len : nat) (other : vec) (m : mem nat) : res Z :=
  if decide (v_size self < pos) then Throw
  else
    let len := if decide (v_size self - pos < len) then v_size self - pos else len in
    char_compare (fun i => pread m (v_data self) (pos + i)) (fun i => pread m (v_data other) i) len.

(** c_str(), lines 248-251: write the terminator, return the data pointer. *)
Definition str_cstr (self : vec) (m : mem nat) : res (ptr * mem nat) :=
  let* m1 := passign chr m (v_data self) (v_size self) 0 in Ok (v_data self, m1).

(** The same calls with the string's own c_str() as argument: a pointer into the block the
    string has at the call. *)
Definition own (p : ptr) : mem nat -> nat -> res nat := fun m i => pread m p i.
Definition str_append_own (self : vec) (m : mem nat) : res (vec * mem nat) :=
  let* (p, m1) := str_cstr self m in append_from (S (v_size self)) (own p) self m1.
Definition str_assign_own (self : vec) (m : mem nat) : res (vec * mem nat) :=
  let* (p, m1) := str_cstr self m in assign_from (S (v_size self)) (own p) self m1.
Definition str_insert_own (self : vec) (pos : nat) (m : mem nat) : res (vec * mem nat) :=
  let* (p, m1) := str_cstr self m in insert_from (S (v_size self)) (own p) self pos m1.

(** ** Histories of one string *)
Inductive strop : Type :=
| TBase (o : @vop nat)          (* push_back, pop_back, erase, clear, reserve, shrink_to_fit, s[i] = c *)
| TAppend (buf : list nat) | TAppendN (n c : nat)
| TAssign (buf : list nat) | TAssignN (n c : nat)
| TInsert (pos : nat) (buf : list nat) | TInsertN (pos : nat) (buf : list nat) (n : nat).

Definition str_step (o : strop) (s : vec) (m : mem nat) : res (vec * mem nat) :=
  match o with
  | TBase o => vec_step chr o s m
  | TAppend buf => str_append s buf m
  | TAppendN n c => str_append_n s n c m
  | TAssign buf => str_assign s buf m
  | TAssignN n c => str_assign_n s n c m
  | TInsert pos buf => str_insert s pos buf m
  | TInsertN pos buf n => str_insert_n s pos buf n m
  end.

(** The flags say which operations threw; after a throw the string is as it was. *)
Fixpoint str_run (ops : list strop) (s : vec) (m : mem nat) : res (list bool * vec * mem nat) :=
  match ops with
  | [] => Ok ([], s, m)
  | o :: ops' =>
      match str_step o s m with
      | Ok (s1, m1) => let* (ts, s', m2) := str_run ops' s1 m1 in Ok (false :: ts, s', m2)
      | Throw => let* (ts, s', m2) := str_run ops' s m in Ok (true :: ts, s', m2)
      | UB k => UB k
      | Diverge => Diverge
      end
  end.

(** ** StringView, lines 286-334, with the fields of Model/Sequence.v *)

(** VectorView(const Char* ), lines 293-296; the base's default constructor set capacity 0. *)
Definition sview_of_cstr (b off : nat) (m : mem nat) : res view :=
  let* n := char_length (S (match blocks m !! b with Some (Some cs) => length cs | _ => 0 end))
                        (fun i => read m b (off + i)) in
  Ok (View (CAt b off) n (Some 0)).

(** VectorView(const Vector<Char>&), lines 299-302. *)
Definition sview_of_str (s : vec) : res view :=
  match v_data s with
  | Indet => UB IndetPtr
  | Null => Ok (View CNull (v_size s) (Some 0))
  | Blk b => Ok (View (CAt b 0) (v_size s) (Some 0))
  end.

(** operator==(const VectorView&), lines 304-306. *)
Definition sview_eq (v w : view) : res bool := vview_eq v w.

(** operator==(const Char* ), lines 309-324, for a non-null argument. *)
Definition sview_eq_cstr (v : view) (buf : list nat) (m : mem nat) : res bool :=
  match w_data v with
  | CNull => Ok false
  | CAt b off =>
      let* n := char_length (S (length buf)) (get buf) in
      if decide (w_size v <> n) then Ok false
      else
        let* c := char_compare (fun i => view_get v i m) (get buf) (w_size v) in
        Ok (bool_decide (c = 0%Z))
  end.
