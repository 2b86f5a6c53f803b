(** Model of /repo/include/efp/sort.hpp.

    A [Vector<A>] is represented by the list of its elements with checked
    access ([get]/[put] report [UB OutOfBounds]); that Vector's own operations
    implement this list interface is the subject of Model/Vector.v.
    [comp] is any boolean function; [mv x] is the value left in an object whose
    value [x] was moved out.  Simplifications: [comp] and element
    copies do not throw, [comp] has no side effects, and local Vectors
    ([lefts], [rights]) are lists. *)
From Verif Require Import Base.Cpp.

Section sort.
Context {A : Type} (mv : A -> A) (comp : A -> A -> bool).

(** cpp_core/meta swap (meta.hpp:753-757): temp = move(a); a = move(b);
    b = move(temp), with [a], [b] references to arr[i], arr[j] that may alias. *)
Definition swap_at (l : list A) (i j : nat) : res (list A) :=
  let* temp := get l i in
  let* l1 := put l i (mv temp) in
  let* b := get l1 j in
  let* l2 := put l1 j (mv b) in
  let* l3 := put l2 i b in
  put l3 j temp.

(** merge, sort.hpp:13-40.  First the copies of lines 20-24, then the three
    loops.  State of the loops: (array, i, j, k). *)
Definition copy_range (l : list A) (from n : nat) : res (list A) :=
  for_up n 0 (fun i acc => let* x := get l (from + i) in Ok (acc ++ [x])) [].

(** Lines 26-34. *)
Definition merge_both (lefts rights : list A) (n1 n2 : nat)
    (s : list A * nat * nat * nat) : res ((list A * nat * nat * nat) + (list A * nat * nat * nat)) :=
  let '(arr, i, j, k) := s in
  if decide (i < n1 /\ j < n2) then
    let* x := get lefts i in
    let* y := get rights j in
    if comp x y
    then let* arr' := put arr k x in Ok (inl (arr', S i, j, S k))
    else let* arr' := put arr k y in Ok (inl (arr', i, S j, S k))
  else Ok (inr (arr, i, j, k)).

(** Lines 36-39: copy what is left of one side: (array, index in side, k). *)
Definition merge_rest (side : list A) (n : nat) (s : list A * nat * nat)
    : res ((list A * nat * nat) + (list A * nat * nat)) :=
  let '(arr, i, k) := s in
  if decide (i < n) then
    let* x := get side i in
    let* arr' := put arr k x in Ok (inl (arr', S i, S k))
  else Ok (inr (arr, i, k)).

(** merge, sort.hpp:13-40. The fuel of each loop is one more than the number of
    elements it can move. *)
Definition merge (arr : list A) (left middle right : nat) : res (list A) :=
  let n1 := middle - left + 1 in
  let n2 := right - middle in
  let* lefts := copy_range arr left n1 in
  let* rights := copy_range arr (middle + 1) n2 in
  let* (arr1, i, j, k) := loop (S (n1 + n2)) (merge_both lefts rights n1 n2) (arr, 0, 0, left) in
  let* (arr2, _, k2) := loop (S n1) (merge_rest lefts n1) (arr1, i, k) in
  let* (arr3, _, _) := loop (S n2) (merge_rest rights n2) (arr2, j, k2) in
  Ok arr3.

(** merge_sort_by, sort.hpp:44-51. The recursion depth is bounded by fuel. *)
Fixpoint merge_sort_by (fuel : nat) (arr : list A) (left right : nat) : res (list A) :=
  match fuel with
  | O => Diverge
  | S f =>
      if decide (left < right) then
        let middle := left + (right - left) / 2 in
        let* a1 := merge_sort_by f arr left middle in
        let* a2 := merge_sort_by f a1 (middle + 1) right in
        merge a2 left middle right
      else Ok arr
  end.

(** max_heapify_by, sort.hpp:56-71. *)
Fixpoint max_heapify_by (fuel : nat) (arr : list A) (n i : nat) : res (list A) :=
  match fuel with
  | O => Diverge
  | S f =>
      let left := 2 * i + 1 in
      let right := 2 * i + 2 in
      let* largest1 :=
        (if decide (left < n) then
           let* x := get arr i in let* y := get arr left in
           Ok (if comp x y then left else i)
         else Ok i) in
      let* largest :=
        (if decide (right < n) then
           let* x := get arr largest1 in let* y := get arr right in
           Ok (if comp x y then right else largest1)
         else Ok largest1) in
      if decide (largest <> i) then
        let* arr' := swap_at arr i largest in
        max_heapify_by f arr' n largest
      else Ok arr
  end.

(** heapsort_by, sort.hpp:75-90. *)
Definition heapsort_by (arr : list A) : res (list A) :=
  let n := length arr in
  let* arr1 :=
    (if decide (1 < n)
     then for_down (n / 2) 0 (fun i a => max_heapify_by (S n) a n i) arr
     else Ok arr) in
  for_down n 1 (fun i a =>
    let* a' := swap_at a 0 i in max_heapify_by (S n) a' i 0) arr1.

(** insertion_sort_by_, sort.hpp:93-105: the inner while (lines 98-101), by
    recursion on j; returns the array and the final j. *)
Fixpoint insert_shift (arr : list A) (left : nat) (key : A) (j : nat) : res (list A * nat) :=
  match j with
  | O => Ok (arr, O)                               (* j > left fails at 0 *)
  | S j' =>
      if decide (left < S j') then
        let* y := get arr j' in
        if comp key y then
          let* a1 := put arr j' (mv y) in          (* move out of arr[j-1] *)
          let* a2 := put a1 (S j') y in
          insert_shift a2 left key j'
        else Ok (arr, S j')
      else Ok (arr, S j')
  end.

Definition insertion_sort_by_ (arr : list A) (left right : nat) : res (list A) :=
  for_up (S right - (left + 1)) (left + 1) (fun i a =>
    let* key := get a i in
    let* a1 := put a i (mv key) in
    let* (a2, j) := insert_shift a1 left key i in
    put a2 j key) arr.

(** insertion_sort_by, sort.hpp:109-113. *)
Definition insertion_sort_by (arr : list A) : res (list A) :=
  if decide (length arr <> 0) then insertion_sort_by_ arr 0 (length arr - 1) else Ok arr.

(** partition_by, sort.hpp:118-130.  [i] is a size_t that starts at [low - 1] and
    wraps, hence [Z] with explicit [wrap]. *)
Definition partition_by (arr : list A) (low high : nat) : res (list A * Z) :=
  let* pivot := get arr high in
  let i0 := wrap (Z.of_nat low - 1) in
  let* (a, i) := for_up (high - low) low (fun j (s : list A * Z) =>
      let '(a, i) := s in
      let* x := get a j in
      if comp x pivot then
        let i' := wrap (i + 1) in
        let* a' := swap_at a (Z.to_nat i') j in Ok (a', i')
      else Ok (a, i)) (arr, i0) in
  let* a' := swap_at a (Z.to_nat (wrap (i + 1))) high in
  Ok (a', wrap (i + 1)).

(** quicksort_by, sort.hpp:134-141. *)
Fixpoint quicksort_by (fuel : nat) (arr : list A) (low high : nat) : res (list A) :=
  match fuel with
  | O => Diverge
  | S f =>
      if decide (low < high) then
        let* (a, piz) := partition_by arr low high in
        let pi := Z.to_nat piz in
        let* a1 := (if decide (pi <> 0) then quicksort_by f a low (pi - 1) else Ok a) in
        quicksort_by f a1 (pi + 1) high
      else Ok arr
  end.

(** size_trosort_by (introsort), sort.hpp:146-151. *)
Definition introsort_by (arr : list A) : res (list A) :=
  if decide (length arr <= 1) then Ok arr
  else
    let* a := quicksort_by (S (length arr)) arr 0 (length arr - 1) in
    insertion_sort_by a.

(** timsort_merge, sort.hpp:155-184: the shifting loop of lines 172-175,
    by recursion on index. *)
Fixpoint shift_right (arr : list A) (start index : nat) : res (list A) :=
  if decide (index <> start) then
    match index with
    | O => UB OutOfBounds                          (* arr[index - 1] wraps *)
    | S i' =>
        let* y := get arr i' in
        let* a := put arr index y in
        shift_right a start i'
    end
  else Ok arr.

(** The main loop, lines 163-183; state (array, start, mid, start2). *)
Definition timsort_merge_step (endi : nat) (s : list A * nat * nat * nat)
    : res ((list A * nat * nat * nat) + list A) :=
  let '(arr, start, mid, start2) := s in
  if decide (start <= mid /\ start2 <= endi) then
    let* y := get arr start2 in
    let* x := get arr start in
    if negb (comp y x) then Ok (inl (arr, S start, mid, start2))
    else
      let value := y in
      let* a1 := shift_right arr start start2 in
      let* a2 := put a1 start value in
      Ok (inl (a2, S start, S mid, S start2))
  else Ok (inr arr).

Definition timsort_merge (arr : list A) (start mid endi : nat) : res (list A) :=
  let start2 := mid + 1 in
  let* x := get arr mid in
  let* y := get arr start2 in
  if negb (comp x y) then Ok arr
  else loop (S (S (endi - start) + S endi)) (timsort_merge_step endi) (arr, start, mid, start2).

(** timsort_by, sort.hpp:188-211. [run_loop] is lines 194-195, [merge_pass] lines
    201-209, [merge_loop] lines 198-210; each is fuelled. *)
Definition RUN : nat := 32.

Definition run_loop (n : nat) : nat * list A -> res ((nat * list A) + list A) :=
  fun '(i, a) =>
    if decide (i < n) then
      let* a' := insertion_sort_by_ a i (Nat.min (i + 31) (n - 1)) in
      Ok (inl (i + RUN, a'))
    else Ok (inr a).

Definition merge_pass (n size : nat) : nat * list A -> res ((nat * list A) + list A) :=
  fun '(lft, a) =>
    if decide (lft < n) then
      let mid := lft + size - 1 in
      let rgt := Nat.min (lft + 2 * size - 1) (n - 1) in
      let* a' := (if decide (mid < rgt) then timsort_merge a lft mid rgt else Ok a) in
      Ok (inl (lft + 2 * size, a'))
    else Ok (inr a).

Definition merge_loop (n : nat) : nat * list A -> res ((nat * list A) + list A) :=
  fun '(size, a) =>
    if decide (size < n) then
      let* a' := loop (S n) (merge_pass n size) (0, a) in
      Ok (inl (2 * size, a'))
    else Ok (inr a).

Definition timsort_by (arr : list A) : res (list A) :=
  let n := length arr in
  let* a1 := loop (S n) (run_loop n) (0, arr) in
  loop (S n) (merge_loop n) (RUN, a1).

(** sort_by, sort.hpp:243-246; sort_unstable_by, sort.hpp:248-251. *)
Definition sort_by (arr : list A) : res (list A) := timsort_by arr.
Definition sort_unstable_by (arr : list A) : res (list A) := introsort_by arr.

(** quicksort, heapsort, insertion_sort, size_trosort, timsort, sort,
    sort_unstable (sort.hpp:215-239, 253-261) are the [_by] versions with
    [comp := op_lt<A>]; quicksort guards the empty vector. *)
Definition quicksort (arr : list A) : res (list A) :=
  if decide (length arr <> 0) then quicksort_by (S (length arr)) arr 0 (length arr - 1) else Ok arr.

End sort.
