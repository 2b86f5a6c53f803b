(** Printing of formatted text (fmt/format-inl.h, fmt/core.h, format.hpp), on a system other than Windows. is_utf8, core.h:
    393-400, is taken to be true, as it is unless EFP_FMT_UNICODE is 0 and the chars of a literal are not UTF-8: then print does
    nothing, core.h:3030. *)
From Verif Require Import Base.Cpp Model.Format.
Local Open Scope Z_scope.

(** A FILE of C: the chars it was given, and how many more it takes, any number if [None]. *)
Record stream : Type := Stream { given : list Z; takes : option nat }.
(** std::fwrite: the number of chars written. *)
Definition fwrite (f : stream) (t : list Z) : stream * nat :=
  let n := match takes f with Some r => Nat.min r (length t) | None => length t end in
  (Stream (given f ++ take n t) ((fun r => r - n)%nat <$> takes f), n).
(** fwrite_fully, format-inl.h:76-80. The stream stays changed if it throws. *)
Definition fwrite_fully (f : stream) (t : list Z) : stream * res unit :=
  let '(f, n) := fwrite f t in (f, if decide (n < length t)%nat then Throw else Ok tt).
(** vprint, format-inl.h:1492-1500, and print, 1479-1489. The buffer is the list that vformat_to returns, see FmtBuffer.v. *)
Definition vprint (E : env) (A : args custom_value) (s : list Z) (f : stream) : stream * res unit :=
  match vformat E A s with
  | Ok t => fwrite_fully f t
  | Throw => (f, Throw)
  | UB k => (f, UB k)
  | Diverge => (f, Diverge)
  end.
(** print, core.h:3245-3248 and 3261-3264, format.hpp:22-26. *)
Definition print (E : env) (A : args custom_value) (s : list Z) (f : stream) : stream * res unit := vprint E A s f.
(** println, core.h:3271-3282, format.hpp:39-41: the text is an argument of the format string with a field and a newline. *)
Definition println (E : env) (A : args custom_value) (s : list Z) (f : stream) : stream * res unit :=
  match vformat E A s with
  | Ok t => print E (Args [AScalar (VStr t)] []) [123; 125; 10] f
  | Throw => (f, Throw)
  | UB k => (f, UB k)
  | Diverge => (f, Diverge)
  end.

(** A program that prints, and goes on when it fails. *)
Inductive printing : Type := Print (A : args custom_value) (s : list Z) | Println (A : args custom_value) (s : list Z).
Definition run_printing (E : env) (p : printing) (f : stream) : stream * res unit :=
  match p with Print A s => print E A s f | Println A s => println E A s f end.
Fixpoint run_printings (E : env) (ps : list printing) (f : stream) : stream * list (res unit) :=
  match ps with
  | [] => (f, [])
  | p :: ps => let '(f, r) := run_printing E p f in let '(f, rs) := run_printings E ps f in (f, r :: rs)
  end.
