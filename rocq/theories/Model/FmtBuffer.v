(** The buffers that formatted text goes to (fmt/core.h, fmt/format.h). Line numbers without a file are of core.h.
    Chars are [Z]. Storage is that of Base/Mem.v: the arrays inside of the buffer objects (store_, data_) are blocks too. *)
From Verif Require Import Base.Cpp Base.Mem.
Local Open Scope Z_scope.

(** char: a trivial type. *)
Definition char_type : ety Z := Ety true id.
(** The largest size_t. *)
Definition size_max : Z := 2 ^ 64 - 1.
(** The enum buffer_size of iterator_buffer and counting_buffer, 1006, 1051, 1141. *)
Definition buffer_size : Z := 256.

(** The classes derived from buffer, with the members that they add:
    - [Memory store]: basic_memory_buffer, format.h:1003, with the block of store_;
    - [Fixed b i data count limit]: iterator_buffer<T*, T, fixed_buffer_traits>, 1044-1093: out_ points to cell [i] of
      block [b];
    - [Plain]: iterator_buffer<T*, T>, 1096-1107;
    - [Counting data count]: counting_buffer, 1137-1159;
    - [Iter data out bound]: iterator_buffer<OutputIt, T, Traits>, 1002-1041, for an output iterator that takes all chars and
      keeps them in a list. [bound] is count_ and limit_ of fixed_buffer_traits, or nothing for buffer_traits. *)
Inductive flavour : Type :=
| Memory (store : nat)
| Fixed (out_block out_cell data : nat) (count limit : Z)
| Plain
| Counting (data : nat) (count : Z)
| Iter (data : nat) (out : list Z) (bound : option (Z * Z)).

(** buffer, 859-964: ptr_ points to cell [cell_of] of block [block_of]. *)
Record buffer : Type := Buffer { fl : flavour; block_of : nat; cell_of : nat; size : Z; capacity : Z }.
(** set, 879-882; clear, 928-930. *)
Definition set_data (o : buffer) (b i : nat) (c : Z) : buffer := Buffer (fl o) b i (size o) c.
Definition set_size (o : buffer) (n : Z) : buffer := Buffer (fl o) (block_of o) (cell_of o) n (capacity o).
Definition set_fl (o : buffer) (f : flavour) : buffer := Buffer f (block_of o) (cell_of o) (size o) (capacity o).

(** Copying [n] chars to cell [i] of block [b] and on; [src m k] reads the char [k] of the source. *)
Definition source := mem Z -> nat -> res Z.
Definition copy_in (m : mem Z) (b i n : nat) (src : source) : res (mem Z) :=
  for_up n 0 (fun k m => let* c := src m k in assign char_type m b (i + k) c) m.
(** A text that is not in the modelled storage, and chars from cell [i] of block [b] on. *)
Definition from_text (cs : list Z) : source := fun _ k => get cs k.
Definition from_memory (b i : nat) : source := fun m k => read m b (i + k).

(** limit of fixed_buffer_traits, 991-995, with the new count_; of buffer_traits, 974-976. *)
Definition limit_fixed (count limit n : Z) : Z * Z :=
  let room := if decide (limit > count) then limit - count else 0 in
  (if decide (n < room) then n else room, count + n).
(** The first [n] chars of a block. *)
Fixpoint read_chars (m : mem Z) (b i n : nat) : res (list Z) :=
  match n with O => Ok [] | S n => let* c := read m b i in let* cs := read_chars m b (S i) n in Ok (c :: cs) end.

(** flush of the iterator buffers, 1018-1022 and 1063-1070. *)
Definition flush (m : mem Z) (o : buffer) : res buffer :=
  match fl o with
  | Fixed b i data count limit =>
      let '(n, count) := limit_fixed count limit (size o) in
      let o :=
        if decide (block_of o = b /\ cell_of o = i) then
          set_data (set_fl o (Fixed b (i + Z.to_nat n) data count limit)) data 0 buffer_size
        else set_fl o (Fixed b i data count limit) in
      Ok (set_size o 0)
  | Iter data out bound =>
      let '(n, bound) := match bound with
                         | Some (count, limit) => let '(n, count) := limit_fixed count limit (size o) in (n, Some (count, limit))
                         | None => (size o, None)
                         end in
      let* cs := read_chars m data 0 (Z.to_nat n) in
      Ok (set_size (set_fl o (Iter data (out ++ cs) bound)) 0)
  | _ => Ok o
  end.

(** grow: of basic_memory_buffer, format.h:1017-1040, where the limit of the allocator is left out; 1013-1016; 1058-1061;
    1099; 1145-1150. *)
Definition grow (m : mem Z) (o : buffer) (n : Z) : res (mem Z * buffer) :=
  match fl o with
  | Memory store =>
      let new_capacity := capacity o + capacity o / 2 in
      let new_capacity := if decide (n > new_capacity) then n else new_capacity in
      let old := block_of o in
      let '(new, m) := alloc m (Z.to_nat new_capacity) in
      let* m := copy_in m new 0 (Z.to_nat (size o)) (from_memory old (cell_of o)) in
      let o := set_data o new 0 new_capacity in
      let* m := if decide (old = store) then Ok m else free char_type m old in
      Ok (m, o)
  | Fixed _ _ _ _ _ => if decide (size o = capacity o) then let* o := flush m o in Ok (m, o) else Ok (m, o)
  | Plain => Ok (m, o)
  | Counting data count =>
      if decide (size o <> buffer_size) then Ok (m, o) else Ok (m, set_size (set_fl o (Counting data (count + size o))) 0)
  | Iter _ _ _ => if decide (size o = buffer_size) then let* o := flush m o in Ok (m, o) else Ok (m, o)
  end.

(** try_reserve, 944-947; try_resize, 935-938. *)
Definition try_reserve (m : mem Z) (o : buffer) (n : Z) : res (mem Z * buffer) :=
  if decide (n > capacity o) then grow m o n else Ok (m, o).
Definition try_resize (m : mem Z) (o : buffer) (n : Z) : res (mem Z * buffer) :=
  let* (m, o) := try_reserve m o n in
  Ok (m, set_size o (if decide (n <= capacity o) then n else capacity o)).

(** push_back, 949-952. The argument is a reference, read by [src] once there is room. *)
Definition push_back (m : mem Z) (o : buffer) (src : source) : res (mem Z * buffer) :=
  let* (m, o) := try_reserve m o (size o + 1) in
  let* c := src m 0%nat in
  let* m := assign char_type m (block_of o) (cell_of o + Z.to_nat (size o)) c in
  Ok (m, set_size o (size o + 1)).

(** append, format.h:951-966: [done] chars of [n] are copied. *)
Definition append_step (src : source) (n : Z) : mem Z * buffer * Z -> res (mem Z * buffer * Z + mem Z * buffer) :=
  fun '(m, o, from) =>
    if decide (from = n) then Ok (inr (m, o)) else
    let count := n - from in
    let* (m, o) := try_reserve m o (size o + count) in
    let free_cap := capacity o - size o in
    let count := if decide (free_cap < count) then free_cap else count in
    let* m := copy_in m (block_of o) (cell_of o + Z.to_nat (size o)) (Z.to_nat count) (fun m k => src m (Z.to_nat from + k)%nat) in
    Ok (inl (m, set_size o (size o + count), from + count)).
Definition append (m : mem Z) (o : buffer) (n : nat) (src : source) : res (mem Z * buffer) :=
  loop (S (S n)) (append_step src (Z.of_nat n)) (m, o, 0).

(** reserve and to_pointer of an appender, format.h:638-643 and 658-666: the cell from which [n] chars may be written, if
    there is room for them. *)
Definition reserve (m : mem Z) (o : buffer) (n : Z) : res (mem Z * buffer) := try_reserve m o (size o + n).
Definition to_pointer (m : mem Z) (o : buffer) (n : Z) : res (mem Z * buffer * option Z) :=
  if decide (capacity o < size o + n) then Ok (m, o, None)
  else let* (m, o') := try_resize m o (size o + n) in Ok (m, o', Some (size o)).
(** How text of a known length is written: in place if there is room, or appended (format_uint, format.h:1517-1531; write
    of floating-point numbers, 2580-2590). The code writes from the end; the cells are the same. *)
Definition write_direct (m : mem Z) (o : buffer) (cs : list Z) : res (mem Z * buffer) :=
  let* (m, o, p) := to_pointer m o (Z.of_nat (length cs)) in
  match p with
  | Some p => let* m := copy_in m (block_of o) (cell_of o + Z.to_nat p) (length cs) (from_text cs) in Ok (m, o)
  | None => append m o (length cs) (from_text cs)
  end.

(** The writes that formatting makes. *)
Inductive write : Type := Push (c : Z) | Append (cs : list Z) | Direct (cs : list Z) | Reserve (n : nat).
Definition run_write (m : mem Z) (o : buffer) (w : write) : res (mem Z * buffer) :=
  match w with
  | Push c => push_back m o (from_text [c])
  | Append cs => append m o (length cs) (from_text cs)
  | Direct cs => write_direct m o cs
  | Reserve n => reserve m o (Z.of_nat n)
  end.
Fixpoint run_writes (m : mem Z) (o : buffer) (ws : list write) : res (mem Z * buffer) :=
  match ws with [] => Ok (m, o) | w :: ws => let* (m, o) := run_write m o w in run_writes m o ws end.

(** ** The ends of the buffers *)

(** vformat_to_n, 3193-3203, with an array as the output: the iterator past the end, and the size. The
    constructor, 1072-1074, out(), 1087-1090, and count(), 1092-1094. *)
Definition format_to_n (m : mem Z) (b i : nat) (n : Z) (ws : list write) : res (mem Z * nat * Z) :=
  let '(data, m) := alloc m (Z.to_nat buffer_size) in
  let* (m, o) := run_writes m (Buffer (Fixed b i data 0 n) b i 0 n) ws in
  let* o := flush m o in
  match fl o with
  | Fixed _ i _ count _ => let* m := free char_type m data in Ok (m, i, count + size o)
  | _ => UB WrongMember
  end.
(** vformat_to with an array as the output, 3158-3163 and 1096-1107. *)
Definition format_to_array (m : mem Z) (b i : nat) (ws : list write) : res (mem Z * nat) :=
  let* (m, o) := run_writes m (Buffer Plain b i 0 size_max) ws in
  Ok (m, (cell_of o + Z.to_nat (size o))%nat).
(** formatted_size, 3224-3228, and counting_buffer::count, 1155-1157. *)
Definition formatted_size (m : mem Z) (ws : list write) : res (mem Z * Z) :=
  let '(data, m) := alloc m (Z.to_nat buffer_size) in
  let* (m, o) := run_writes m (Buffer (Counting data 0) data 0 0 buffer_size) ws in
  match fl o with
  | Counting _ count => let* m := free char_type m data in Ok (m, count + size o)
  | _ => UB WrongMember
  end.
(** vformat_to, 3158-3163, and vformat_to_n with another output iterator: what it is given, and the size. *)
Definition format_to_iterator (m : mem Z) (bound : option Z) (ws : list write) : res (mem Z * list Z * Z) :=
  let '(data, m) := alloc m (Z.to_nat buffer_size) in
  let* (m, o) := run_writes m (Buffer (Iter data [] ((fun n => (0, n)) <$> bound)) data 0 0 buffer_size) ws in
  let* o := flush m o in
  match fl o with
  | Iter _ out bound => let* m := free char_type m data in Ok (m, out, match bound with Some (count, _) => count | None => 0 end + size o)
  | _ => UB WrongMember
  end.

(** ** basic_memory_buffer, format.h:1003-1120 *)

(** The constructor, 1046-1051, with [n] the template argument SIZE; the destructor, 1053-1055 and 1012-1016. *)
Definition memory_buffer (m : mem Z) (n : nat) : mem Z * buffer :=
  let '(store, m) := alloc m n in (m, Buffer (Memory store) store 0 0 (Z.of_nat n)).
Definition deallocate (m : mem Z) (o : buffer) : res (mem Z) :=
  match fl o with
  | Memory store => if decide (block_of o = store) then Ok m else free char_type m (block_of o)
  | _ => UB WrongMember
  end.
Definition destroy_buffer (m : mem Z) (o : buffer) : res (mem Z) :=
  let* m := deallocate m o in
  match fl o with Memory store => free char_type m store | _ => UB WrongMember end.
(** move, 1059-1073: from [p] to [o]. *)
Definition move_buffer (m : mem Z) (o p : buffer) : res (mem Z * buffer * buffer) :=
  match fl o, fl p with
  | Memory store, Memory store' =>
      let n := size p in
      let* (m, o, p) :=
        if decide (block_of p = store') then
          let o := set_data o store 0 (capacity p) in
          let* m := copy_in m store 0 (Z.to_nat n) (from_memory store' 0) in
          Ok (m, o, p)
        else Ok (m, set_data o (block_of p) (cell_of p) (capacity p), set_size (set_data p store' 0 0) 0) in
      let* (m, o) := try_resize m o n in
      Ok (m, o, p)
  | _, _ => UB WrongMember
  end.
(** The move constructor, 1082-1084, and the move assignment, 1091-1096. *)
Definition move_construct (m : mem Z) (n : nat) (p : buffer) : res (mem Z * buffer * buffer) :=
  let '(store, m) := alloc m n in move_buffer m (Buffer (Memory store) store 0 0 0) p.
Definition move_assign (m : mem Z) (o p : buffer) : res (mem Z * buffer * buffer) :=
  let* m := deallocate m o in move_buffer m o p.
(** clear, 928-930; resize and reserve, format.h:1107-1114. *)
Definition clear (o : buffer) : buffer := set_size o 0.
(** to_string, format.h:4711-4715, of a memory buffer: the chars that the string is made of. vformat, format-inl.h:1440-1446. *)
Definition contents (m : mem Z) (o : buffer) : res (list Z) := read_chars m (block_of o) (cell_of o) (Z.to_nat (size o)).
Definition vformat_buffer (m : mem Z) (n : nat) (ws : list write) : res (mem Z * list Z) :=
  let '(m, o) := memory_buffer m n in
  let* (m, o) := run_writes m o ws in
  let* cs := contents m o in
  let* m := destroy_buffer m o in
  Ok (m, cs).

(** ** A program that uses memory buffers *)
Inductive action : Type :=
| NewBuffer                        (* basic_memory_buffer b; *)
| WriteTo (i : nat) (ws : list write)
| ClearIt (i : nat)                (* b.clear(); *)
| Shrink (i : nat) (n : Z)         (* if (n <= b.size()) b.resize(n); *)
| MoveNew (i : nat)                (* basic_memory_buffer b(std::move(c)); *)
| MoveTo (i j : nat)               (* b = std::move(c); *)
| Destroy (i : nat).               (* the end of the lifetime of b *)
Definition get_buffer (bs : list (option buffer)) (i : nat) : res buffer :=
  match bs !! i with Some (Some o) => Ok o | _ => UB DeadObject end.
Definition act (N : nat) (st : mem Z * list (option buffer)) (a : action) : res (mem Z * list (option buffer)) :=
  let '(m, bs) := st in
  match a with
  | NewBuffer => let '(m, o) := memory_buffer m N in Ok (m, bs ++ [Some o])
  | WriteTo i ws => let* o := get_buffer bs i in let* (m, o) := run_writes m o ws in Ok (m, <[i := Some o]> bs)
  | ClearIt i => let* o := get_buffer bs i in Ok (m, <[i := Some (clear o)]> bs)
  | Shrink i n =>
      let* o := get_buffer bs i in
      if decide (0 <= n <= size o) then let* (m, o) := try_resize m o n in Ok (m, <[i := Some o]> bs) else Ok (m, bs)
  | MoveNew i => let* p := get_buffer bs i in let* (m, o, p) := move_construct m N p in Ok (m, <[i := Some p]> bs ++ [Some o])
  | MoveTo i j =>
      let* o := get_buffer bs i in let* p := get_buffer bs j in
      let* (m, o, p) := move_assign m o p in Ok (m, <[j := Some p]> (<[i := Some o]> bs))
  | Destroy i => let* o := get_buffer bs i in let* m := destroy_buffer m o in Ok (m, <[i := None]> bs)
  end.
Fixpoint act_all (N : nat) (st : mem Z * list (option buffer)) (l : list action) : res (mem Z * list (option buffer)) :=
  match l with [] => Ok st | a :: l => let* st := act N st a in act_all N st l end.
