(** Model of /repo/include/efp/io.hpp: class File, over a model of C streams.

    A char is a number from -128 to 127, a byte one from 0 to 255. String and Vector are the lists
    they hold (C14, C27). Maybe<File> is an option. Streams are not buffered and text mode is binary
    mode, as on POSIX systems; a write fails when the disk is full; fclose fails for the streams in
    [bad]. *)
From Verif Require Import Base.Cpp.
Local Open Scope Z_scope.

(** ** C streams (cstdio) *)

Definition to_byte (c : Z) : Z := c mod 256.
Definition to_char (b : Z) : Z := if decide (b < 128) then b else b - 256.
Definition EOF : Z := -1.
Definition newline : Z := 10.

(** An open stream: its file, its position, what its mode permits, and whether the last operation
    read or wrote: C17 7.21.5.3p7 requires a seek or flush between the two. *)
Inductive dir : Type := In | Out.
Record stream : Type := Stream {
  s_path : nat; s_pos : nat; s_read : bool; s_write : bool; s_append : bool; s_last : option dir }.

(** The content of each file, the bytes that can still be written, the streams opened so far: [None]
    if closed. A FILE* is a position in this list. *)
Record world : Type := World {
  disk : nat -> option (list Z); room : option nat; streams : list (option stream) }.

Definition content (w : world) (p : nat) : list Z := default [] (disk w p).
Definition set_file (p : nat) (l : list Z) (w : world) : world :=
  World (fun q => if decide (q = p) then Some l else disk w q) (room w) (streams w).
Definition set_stream (h : nat) (s : option stream) (w : world) : world :=
  World (disk w) (room w) (<[h := s]> (streams w)).
Definition with_stream {X} (h : nat) (w : world) (f : stream -> res X) : res X :=
  match streams w !! h with Some (Some s) => f s | _ => UB UseAfterFree end.
Definition moved (s : stream) (pos : nat) (d : option dir) : stream :=
  Stream (s_path s) pos (s_read s) (s_write s) (s_append s) d.

(** fopen: r, w or a, with or without +; anything else is refused. *)
Definition fopen (p : nat) (mode : list Z) (w : world) : option nat * world :=
  let plus := existsb (Z.eqb 43) mode in
  let new s w := (Some (length (streams w)), World (disk w) (room w) (streams w ++ [Some s])) in
  match mode with
  | 114 :: _ => match disk w p with None => (None, w) | Some _ => new (Stream p 0 true plus false None) w end
  | 119 :: _ => new (Stream p 0 plus true false None) (set_file p [] w)
  | 97 :: _ => new (Stream p 0 plus true true None) (set_file p (content w p) w)
  | _ => (None, w)
  end.

Definition fgetc (h : nat) (w : world) : res (Z * world) :=
  with_stream h w (fun s =>
    if s_read s then
      match s_last s with
      | Some Out => UB StreamOrder
      | _ =>
          match content w (s_path s) !! s_pos s with
          | Some b => Ok (b, set_stream h (Some (moved s (S (s_pos s)) (Some In))) w)
          | None => Ok (EOF, set_stream h (Some (moved s (s_pos s) None)) w)
          end
      end
    else Ok (EOF, w)).

(** Writing past the end fills the gap with zeros. *)
Definition write_at (pos : nat) (b : Z) (l : list Z) : list Z :=
  take pos (l ++ replicate (pos - length l) 0) ++ b :: drop (S pos) l.
Definition fputc (c : Z) (h : nat) (w : world) : res (Z * world) :=
  with_stream h w (fun s =>
    if s_write s then
      match s_last s, room w with
      | Some In, _ => UB StreamOrder
      | _, Some O => Ok (EOF, w)
      | _, r =>
          let l := content w (s_path s) in
          let pos := if s_append s then length l else s_pos s in
          let w1 := set_stream h (Some (moved s (S pos) (Some Out))) (set_file (s_path s) (write_at pos (to_byte c) l) w) in
          Ok (to_byte c, World (disk w1) (pred <$> r) (streams w1))
      end
    else Ok (EOF, w)).

(** fwrite: the number of chars written. *)
Fixpoint fwrite (cs : list Z) (h : nat) (w : world) : res (nat * world) :=
  match cs with
  | [] => Ok (0%nat, w)
  | c :: cs =>
      let* (r, w) := fputc c h w in
      if decide (r = EOF) then Ok (0%nat, w) else
      let* (n, w) := fwrite cs h w in Ok (S n, w)
  end.
(** fputs: the chars before the terminator; [false] for EOF. *)
Fixpoint fputs (cs : list Z) (h : nat) (w : world) : res (bool * world) :=
  match cs with
  | [] => UB OutOfBounds
  | c :: cs =>
      if decide (c = 0) then Ok (true, w) else
      let* (r, w) := fputc c h w in
      if decide (r = EOF) then Ok (false, w) else fputs cs h w
  end.
(** fclose: [true] for success. The stream is gone in both cases. *)
Definition fclose (bad : nat -> bool) (h : nat) (w : world) : res (bool * world) :=
  match streams w !! h with
  | Some (Some _) => Ok (negb (bad h), set_stream h None w)
  | _ => UB BadFree
  end.
Definition fseek (offset : Z) (h : nat) (w : world) : res (bool * world) :=
  with_stream h w (fun s =>
    if decide (0 <= offset) then Ok (true, set_stream h (Some (moved s (Z.to_nat offset) None)) w) else Ok (false, w)).
Definition ftell (h : nat) (w : world) : res Z := with_stream h w (fun s => Ok (Z.of_nat (s_pos s))).
(** fflush of one stream; of all streams if the pointer is null. *)
Definition flushed (s : stream) : stream :=
  moved s (s_pos s) (match s_last s with Some Out => None | d => d end).
Definition fflush (h : option nat) (w : world) : res world :=
  match h with
  | None => Ok (World (disk w) (room w) ((fun s : option stream => flushed <$> s) <$> streams w))
  | Some h => with_stream h w (fun s => Ok (set_stream h (Some (flushed s)) w))
  end.

(** strlen of an array. *)
Fixpoint strlen (cs : list Z) : res nat :=
  match cs with
  | [] => UB OutOfBounds
  | c :: cs => if decide (c = 0) then Ok 0%nat else let* n := strlen cs in Ok (S n)
  end.
(** strchr of an array whose cells may be uninitialised: is [x] there before the terminator? *)
Fixpoint strchr (cells : list (option Z)) (x : Z) : res bool :=
  match cells with
  | [] => UB OutOfBounds
  | None :: _ => UB Uninit
  | Some c :: cells => if decide (c = x) then Ok true else if decide (c = 0) then Ok false else strchr cells x
  end.

(** ** class File *)

(** Members, 162-163: _file, null or a stream, and char _mode[8]. *)
Record file : Type := File { f_file : option nat; f_mode : list (option Z) }.

(** File(FILE*, const char* ), 157-160: strncpy of 7 chars, then a terminator. *)
Definition file_new (h : nat) (mode : list Z) : file :=
  File (Some h) (Some <$> (take 7 (mode ++ replicate 7 0) ++ [0])).
(** File(File&&), 40-42: _mode is not initialised. The new object and [other]. *)
Definition file_move (other : file) : file * file :=
  (File (f_file other) (replicate 8 None), File None (f_mode other)).
(** operator=(File&&), 44-50, with [this != &other]. *)
Definition file_assign (self other : file) : file * file :=
  (File (f_file other) (f_mode self), File None (f_mode other)).
(** ~File, 52-55. *)
Definition file_destroy (bad : nat -> bool) (f : file) (w : world) : res world :=
  match f_file f with
  | Some h => let* (_, w) := fclose bad h w in Ok w
  | None => Ok w
  end.
(** open, 16-24 and 26-34: the temporary is moved into the result and destroyed. *)
Definition file_open (bad : nat -> bool) (p : nat) (mode : list Z) (w : world) : res (option file * world) :=
  match fopen p mode w with
  | (Some h, w) =>
      let '(f, temp) := file_move (file_new h mode) in
      let* w := file_destroy bad temp w in Ok (Some f, w)
  | (None, w) => Ok (None, w)
  end.

(** Bytes after the position of a stream: enough fuel for the loops. *)
Definition left_over (h : nat) (w : world) : nat :=
  match streams w !! h with
  | Some (Some s) => length (content w (s_path s)) - s_pos s
  | _ => 0
  end.
(** read_line, 57-74. *)
Definition read_loop (h : nat) (w : world) : res (list Z * Z * world) :=
  loop (S (left_over h w)) (fun '(buffer, w) =>
    let* (ch, w) := fgetc h w in
    if decide (ch <> newline /\ ch <> EOF) then Ok (inl (buffer ++ [to_char ch], w)) else Ok (inr (buffer, ch, w))) ([], w).
Definition read_line (f : file) (w : world) : res (option (list Z) * world) :=
  match f_file f with
  | Some h =>
      let* (buffer, ch, w) := read_loop h w in
      if decide (ch = EOF /\ buffer = []) then Ok (None, w) else Ok (Some buffer, w)
  | None => Ok (None, w)
  end.
(** read_lines, 76-92. *)
Definition read_lines (f : file) (w : world) : res (list (list Z) * world) :=
  loop (S (match f_file f with Some h => left_over h w | None => 0%nat end)) (fun '(lines, w) =>
    let* (line, w) := read_line f w in
    match line with Some l => Ok (inl (lines ++ [l], w)) | None => Ok (inr (lines, w)) end) ([], w).

(** write(const char*, size_t), 94-119: [data] is the array, [len] is [None] for dyn. *)
Fixpoint put_chars (data : list Z) (n : nat) (h : nat) (w : world) {struct n} : res (bool * world) :=
  match n with
  | O => Ok (true, w)
  | S n =>
      match data with
      | [] => UB OutOfBounds
      | c :: data =>
          let* (r, w) := fputc c h w in
          if decide (r = EOF) then Ok (false, w) else put_chars data n h w
      end
  end.
Definition write_data (f : file) (data : list Z) (len : option nat) (w : world) : res (bool * world) :=
  match f_file f with
  | None => Ok (false, w)
  | Some h =>
      let* binary := strchr (f_mode f) 98 in
      let* n := match len with Some n => Ok n | None => strlen data end in
      if (binary : bool) then
        if decide (n <= length data)%nat then
          let* (k, w) := fwrite (take n data) h w in Ok (bool_decide (k = n), w)
        else UB OutOfBounds
      else put_chars data n h w
  end.
(** write(const String&), 121-133; c_str adds the terminator. *)
Definition write_string (f : file) (str : list Z) (w : world) : res (bool * world) :=
  match f_file f with
  | None => Ok (false, w)
  | Some h =>
      let* binary := strchr (f_mode f) 98 in
      if (binary : bool) then let* (k, w) := fwrite str h w in Ok (bool_decide (k = length str), w)
      else fputs (str ++ [0]) h w
  end.

(** flush, 135-137; seek, 139-141; tell, 143-145, which returns an int; close, 147-154. *)
Definition flush (f : file) (w : world) : res world := fflush (f_file f) w.
Definition seek (f : file) (offset : Z) (w : world) : res (bool * world) :=
  match f_file f with Some h => fseek offset h w | None => UB NullDeref end.
Definition to_int (x : Z) : Z := (x + 2 ^ 31) mod 2 ^ 32 - 2 ^ 31.
Definition tell (f : file) (w : world) : res Z :=
  match f_file f with Some h => let* x := ftell h w in Ok (to_int x) | None => UB NullDeref end.
Definition close (bad : nat -> bool) (f : file) (w : world) : res (bool * file * world) :=
  match f_file f with
  | Some h =>
      let* (ok, w) := fclose bad h w in
      if (ok : bool) then Ok (true, File None (f_mode f), w) else Ok (false, f, w)
  | None => Ok (false, f, w)
  end.

(** ** Programs with File objects *)

(** Variables hold File objects; an operation on a variable that holds none, or a construction in one
    that does, is not a program. *)
Inductive fop : Type :=
| FOpen (i p : nat) (mode : list Z) | FMove (i j : nat) | FAssign (i j : nat) | FClose (i : nat)
| FDestroy (i : nat) | FReadLine (i : nat) | FReadLines (i : nat) | FFlush (i : nat).
Record fstate : Type := FState { vars : nat -> option file; the_world : world }.
Definition set_var (i : nat) (f : option file) (v : nat -> option file) : nat -> option file :=
  fun j => if decide (j = i) then f else v j.

Definition f_step (bad : nat -> bool) (o : fop) (st : fstate) : option (res fstate) :=
  let v := vars st in let w := the_world st in
  match o with
  | FOpen i p mode =>
      match v i with
      | Some _ => None
      | None => Some (let* (f, w) := file_open bad p mode w in Ok (FState (set_var i f v) w))
      end
  | FMove i j =>
      match v i, v j with
      | None, Some f => let '(f1, f2) := file_move f in Some (Ok (FState (set_var i (Some f1) (set_var j (Some f2) v)) w))
      | _, _ => None
      end
  | FAssign i j =>
      match v i, v j with
      | Some f, Some g =>
          if decide (i = j) then Some (Ok st) else
          let '(f1, f2) := file_assign f g in Some (Ok (FState (set_var i (Some f1) (set_var j (Some f2) v)) w))
      | _, _ => None
      end
  | FClose i =>
      match v i with
      | Some f => Some (let* (_, f, w) := close bad f w in Ok (FState (set_var i (Some f) v) w))
      | None => None
      end
  | FDestroy i =>
      match v i with
      | Some f => Some (let* w := file_destroy bad f w in Ok (FState (set_var i None v) w))
      | None => None
      end
  | FReadLine i =>
      match v i with Some f => Some (let* (_, w) := read_line f w in Ok (FState v w)) | None => None end
  | FReadLines i =>
      match v i with Some f => Some (let* (_, w) := read_lines f w in Ok (FState v w)) | None => None end
  | FFlush i =>
      match v i with Some f => Some (let* w := flush f w in Ok (FState v w)) | None => None end
  end.
