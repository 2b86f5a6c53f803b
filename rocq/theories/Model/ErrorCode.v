(** Model of the error messages in /repo/include/efp/fmt/format-inl.h, 44-74 and 1424-1437. Chars are their codes. A buffer is
    the list of its chars, see FmtBuffer.v for its storage. *)
From Coq Require Import Strings.String.
From Verif Require Import Base.Cpp Model.Numeric Model.FmtInt Model.Dragonbox Model.FormatSpecs Model.Format Model.Print.
Local Open Scope Z_scope.

(** inline_buffer_size, format.h:979. *)
Definition inline_buffer_size : Z := 500.
(** SEP and ERROR_STR, 50-51: arrays of chars that end with a 0; where they are does not matter, but it is not null. *)
Definition SEP : list Z := lit ": " ++ [0].
Definition ERROR_STR : list Z := lit "error " ++ [0].
Definition some_address : Z := 4096.
(** format_to with a buffer_appender: the text is appended. EFP_FMT_STRING is the string itself. *)
Definition format_to (E : env) (out : list Z) (s : list Z) (A : args custom_value) : res (list Z) :=
  let* t := vformat E A s in Ok (out ++ t).
(** format_error_code, 44-65. size_t is arithmetic modulo 2^64. It is noexcept: where this is [Throw], the program ends. *)
Definition format_error_code (E : env) (out : list Z) (error_code : Z) (message : list Z) : res (list Z) :=
  let out := take 0 out in
  let error_code_size := Z.of_nat (length SEP) + Z.of_nat (length ERROR_STR) - 2 in
  let abs_value := error_code mod 2 ^ 32 in
  let '(abs_value, error_code_size) :=
    if is_negative int32 error_code then ((0 - abs_value) mod 2 ^ 32, error_code_size + 1) else (abs_value, error_code_size) in
  let* n := count_digits 32 abs_value in
  let error_code_size := (error_code_size + n) mod 2 ^ 64 in
  let* out :=
    if Z.of_nat (length message) <=? (inline_buffer_size - error_code_size) mod 2 ^ 64
    then format_to E out (lit "{}{}") (Args [AScalar (VStr message); AScalar (VCstr some_address SEP)] []) else Ok out in
  let* out := format_to E out (lit "{}{}") (Args [AScalar (VCstr some_address ERROR_STR); AScalar (VInt int32 error_code)] []) in
  asserted (Z.of_nat (length out) <=? inline_buffer_size) (Ok out).

(** What the C++ library makes of a code and a message, std::system_error(ec, message).what(): a text that is written, or an
    exception, at once or after a part of the text is in the buffer. *)
Inductive attempt : Type := Written (t : list Z) | Failed (part : list Z).
(** format_system_error, 1424-1433. The message is a pointer, as a C string in Model/Format.v; the library reads it, and null is
    undefined behaviour there. *)
Definition format_system_error (E : env) (sys : Z -> list Z -> attempt) (out : list Z) (error_code addr : Z) (chars : list Z) : res (list Z) :=
  if decide (addr = 0) then UB NullDeref else
  let* message := c_string chars in
  match sys error_code message with
  | Written t => Ok (out ++ t)
  | Failed part => format_error_code E (out ++ part) error_code message
  end.
(** report_error, 67-73, with std::fwrite of one element that has the size of the text: 1 if all of it was written, unless it is
    empty. What fputc returns is not looked at. *)
Definition report_error (func : list Z -> res (list Z)) (f : stream) : stream * res unit :=
  match func [] with
  | Ok t =>
      let '(f, n) := fwrite f t in
      (if decide (n = length t /\ n <> 0%nat) then fst (fwrite f [10]) else f, Ok tt)
  | Throw => (f, Throw)
  | UB k => (f, UB k)
  | Diverge => (f, Diverge)
  end.
(** report_system_error, 1435-1437. *)
Definition report_system_error (E : env) (sys : Z -> list Z -> attempt) (error_code addr : Z) (chars : list Z) (f : stream) : stream * res unit :=
  report_error (fun out => format_system_error E sys out error_code addr chars) f.
