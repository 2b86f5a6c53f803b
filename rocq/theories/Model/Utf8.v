(** Model of the UTF-8 functions in /repo/include/efp/fmt/format.h. Chars are their bytes, 0 to 255. *)
From Verif Require Import Base.Cpp.
Local Open Scope Z_scope.

(** utf8_decode, 733-767: the position after the code point, the code point and the error, of the
    four bytes from [p] of the array [s]. Unsigned 32-bit arithmetic; no result reaches 2^32. *)
Definition utf8_lengths : list Z :=
  [1; 1; 1; 1; 1; 1; 1; 1; 1; 1; 1; 1; 1; 1; 1; 1; 0; 0; 0; 0; 0; 0; 0; 0; 2; 2; 2; 2; 3; 3; 4; 0].
Definition bit_if (b : bool) (i : Z) : Z := if b then Z.shiftl 1 i else 0.
Definition utf8_decode (s : list Z) (p : nat) : res (nat * Z * Z) :=
  let* s0 := get s p in
  let* len := get utf8_lengths (Z.to_nat (Z.shiftr s0 3)) in
  let next := Nat.add p (Z.to_nat (len + (if decide (len = 0) then 1 else 0))) in
  let* mask := get [0; 127; 31; 15; 7] (Z.to_nat len) in
  let* min := get [4194304; 0; 128; 2048; 65536] (Z.to_nat len) in
  let* shiftc := get [0; 18; 12; 6; 0] (Z.to_nat len) in
  let* shifte := get [0; 6; 4; 2; 0] (Z.to_nat len) in
  let* s1 := get s (p + 1) in
  let* s2 := get s (p + 2) in
  let* s3 := get s (p + 3) in
  let c := Z.shiftl (Z.land s0 mask) 18 in
  let c := Z.lor c (Z.shiftl (Z.land s1 63) 12) in
  let c := Z.lor c (Z.shiftl (Z.land s2 63) 6) in
  let c := Z.lor c (Z.land s3 63) in
  let c := Z.shiftr c shiftc in
  let e := bit_if (c <? min) 6 in
  let e := Z.lor e (bit_if (Z.shiftr c 11 =? 27) 7) in
  let e := Z.lor e (bit_if (1114111 <? c) 8) in
  let e := Z.lor e (Z.shiftr (Z.land s1 192) 2) in
  let e := Z.lor e (Z.shiftr (Z.land s2 192) 4) in
  let e := Z.lor e (Z.shiftr s3 6) in
  let e := Z.lxor e 42 in
  let e := Z.shiftr e shifte in
  Ok (next, c, e).

(** invalid_code_point, 769. *)
Definition invalid_code_point : Z := 2 ^ 32 - 1.

Section for_each_codepoint.
  Context {St : Type} (f : Z -> nat -> nat -> St -> res (bool * St)).
  (** The lambda decode of for_each_codepoint, 775-783, at [p] of [buf], for the code point at [q] of the
      string: the next position, if [f] wants to go on. *)
  Definition decode (buf : list Z) (p q : nat) (st : St) : res (option nat * St) :=
    let* (next, cp, error) := utf8_decode buf p in
    let bad := negb (error =? 0) in
    let* (result, st) :=
      f (if bad then invalid_code_point else cp) q (if bad then 1%nat else (next - p)%nat) st in
    Ok (if (result : bool) then Some (if bad then (p + 1)%nat else next) else None, st).

  (** for_each_codepoint, 773-805. [f] takes the code point and where its bytes are in [s]: from where,
      and how many. *)
  Definition for_each_codepoint (s : list Z) (st : St) : res St :=
    let* (p, st) :=
      if decide (4 <= length s)%nat then
        loop (S (length s)) (fun '(p, st) =>
          if decide (p < length s - 4 + 1)%nat then
            let* (next, st) := decode s p p st in
            Ok (match next with None => inr (None, st) | Some p => inl (p, st) end)
          else Ok (inr (Some p, st))) (0%nat, st)
      else Ok (Some 0%nat, st) in
    match p with
    | None => Ok st
    | Some p =>
        let num_chars_left := (length s - p)%nat in
        if decide (p = length s) then Ok st
        else
          let* buf := for_up num_chars_left 0 (fun i buf => let* c := get s (p + i) in put buf i c) (replicate 7 0) in
          let* (_, _, st) :=
            loop (S num_chars_left) (fun '(buf_ptr, p, st) =>
              let* (next, st) := decode buf buf_ptr p st in
              match next with
              | None => Ok (inr (buf_ptr, p, st))
              | Some e =>
                  let p := (p + (e - buf_ptr))%nat in
                  Ok (if decide (e < num_chars_left)%nat then inl (e, p, st) else inr (e, p, st))
              end) (0%nat, p, st) in
          Ok st
    end.
End for_each_codepoint.

(** compute_width, 813-849: of a code point, and of a string. *)
Definition cp_width (cp : Z) : Z :=
  let rng a b := (a <=? cp) && (cp <=? b) in
  1 + if (4352 <=? cp)
         && ((cp <=? 4447) || (cp =? 9001) || (cp =? 9002)
             || (rng 11904 42191 && negb (cp =? 12351)) || rng 44032 55203 || rng 63744 64255
             || rng 65040 65049 || rng 65072 65135 || rng 65280 65376 || rng 65504 65510
             || rng 131072 196605 || rng 196608 262141 || rng 127744 128591 || rng 129280 129535)
      then 1 else 0.
Definition compute_width (s : list Z) : res Z :=
  for_each_codepoint (fun cp _ _ count => Ok (true, count + cp_width cp)) s 0.

(** code_point_index, 866-878; [n] is not negative. *)
Definition code_point_index (s : list Z) (n : Z) : res nat :=
  let* (_, result) :=
    for_each_codepoint (fun _ p _ '(n, result) =>
      Ok (if decide (n <> 0) then (true, (n - 1, result)) else (false, (n, p)))) s (n, length s) in
  Ok result.
