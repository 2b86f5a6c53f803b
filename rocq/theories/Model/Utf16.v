(** Model of the converters between UTF-8 and UTF-16 or UTF-32 in /repo/include/efp/fmt. Chars are their bytes, wide chars the
    numbers they hold; a buffer is the list of its elements. *)
From Verif Require Import Base.Cpp Model.Utf8.
Local Open Scope Z_scope.

(** The constructor of utf8_to_utf16, format-inl.h:1408-1422: what the buffer holds. wchar_t has at least 16 bits. *)
Definition utf8_to_utf16 (s : list Z) : res (list Z) :=
  let* buffer := for_each_codepoint (fun cp _ _ buffer =>
    if decide (cp = invalid_code_point) then Throw
    else if cp <=? 65535 then Ok (true, buffer ++ [cp])
    else
      let cp := cp - 65536 in
      Ok (true, buffer ++ [55296 + Z.shiftr cp 10] ++ [56320 + Z.land cp 1023])) s [] in
  Ok (buffer ++ [0]).
(** size and str, format.h:1542-1552, of the buffer: without the 0 at the end. *)
Definition utf16_str (buffer : list Z) : list Z := take (length buffer - 1) buffer.

(** to_utf8_error_policy, format.h:1555. *)
Inductive error_policy : Type := OnErrorAbort | OnErrorReplace.
(** to_utf8::convert, format.h:1602-1639, the static one, for the chars from p on; [two] tells if WChar has two bytes, otherwise
    four. What it returns, and the buffer. A recursion on the chars from p: [rest] are those after p. As in the code, a char
    that comes out of a surrogate pair is computed but not written. *)
Fixpoint convert (two : bool) (policy : error_policy) (buf : list Z) (s : list Z) : bool * list Z :=
  match s with
  | [] => (true, buf)
  | x :: rest =>
      let c := x mod 2 ^ 32 in
      if two && (55296 <=? c) && (c <=? 57343) then
        match rest with
        | y :: rest' =>
            if negb (Z.land c 64512 =? 55296) || negb (Z.land y 64512 =? 56320) then
              match policy with OnErrorAbort => (false, buf) | OnErrorReplace => convert two policy (buf ++ [239; 191; 189]) rest end
            else
              let c := (Z.shiftl c 10 + y - 56613888) mod 2 ^ 32 in
              convert two policy buf rest'
        | [] => match policy with OnErrorAbort => (false, buf) | OnErrorReplace => convert two policy (buf ++ [239; 191; 189]) rest end
        end
      else if c <? 128 then convert two policy (buf ++ [c]) rest
      else if c <? 2048 then convert two policy (buf ++ [Z.lor 192 (Z.shiftr c 6)] ++ [Z.lor 128 (Z.land c 63)]) rest
      else if (2048 <=? c) && (c <=? 55295) || (57344 <=? c) && (c <=? 65535) then
        convert two policy (buf ++ [Z.lor 224 (Z.shiftr c 12)] ++ [Z.lor 128 (Z.shiftr (Z.land c 4095) 6)] ++ [Z.lor 128 (Z.land c 63)]) rest
      else if (65536 <=? c) && (c <=? 1114111) then
        convert two policy (buf ++ [Z.lor 240 (Z.shiftr c 18)] ++ [Z.lor 128 (Z.shiftr (Z.land c 262143) 12)] ++
          [Z.lor 128 (Z.shiftr (Z.land c 4095) 6)] ++ [Z.lor 128 (Z.land c 63)]) rest
      else (false, buf)
  end.
(** The other convert, format.h:1594-1600, on an object whose buffer holds [buffer], which is empty after to_utf8(), 1564: what it
    returns, and the buffer. *)
Definition convert_into (two : bool) (policy : error_policy) (buffer : list Z) (s : list Z) : bool * list Z :=
  match convert two policy buffer s with
  | (true, buffer) => (true, buffer ++ [0])
  | (false, buffer) => (false, buffer)
  end.
(** The constructor of to_utf8, format.h:1566-1573: what the buffer holds. *)
Definition to_utf8 (two : bool) (policy : error_policy) (s : list Z) : res (list Z) :=
  match convert_into two policy [] s with
  | (true, buffer) => Ok buffer
  | (false, _) => Throw
  end.
(** size and str, format.h:1579-1589: without the last char. *)
Definition utf8_str (buffer : list Z) : list Z := take (length buffer - 1) buffer.
