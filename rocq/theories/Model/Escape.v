(** Model of the escaping functions in /repo/include/efp/fmt/format.h, and of is_printable in
    format-inl.h. Chars are their bytes, 0 to 255. *)
From Verif Require Import Base.Cpp Model.FmtInt Model.Utf8.
Local Open Scope Z_scope.

(** ** is_printable, format-inl.h *)

(** The tables, 1548-1648: upper byte and number of lower bytes; lower bytes; lengths of runs. *)
Definition singletons0 : list (Z * nat) := [(0, 1%nat); (3, 5%nat); (5, 6%nat); (6, 3%nat); (7, 6%nat); (8,
  8%nat); (9, 17%nat); (10, 28%nat); (11, 25%nat); (12, 20%nat); (13, 16%nat); (14, 13%nat); (15, 4%nat); (16,
  3%nat); (18, 18%nat); (19, 9%nat); (22, 1%nat); (23, 5%nat); (24, 2%nat); (25, 3%nat); (26, 7%nat); (28,
  2%nat); (29, 1%nat); (31, 22%nat); (32, 3%nat); (43, 3%nat); (44, 2%nat); (45, 11%nat); (46, 1%nat); (48,
  3%nat); (49, 2%nat); (50, 1%nat); (167, 2%nat); (169, 2%nat); (170, 4%nat); (171, 8%nat); (250, 2%nat);
  (251, 5%nat); (253, 4%nat); (254, 3%nat); (255, 9%nat)].
Definition singletons0_lower : list Z := [173; 120; 121; 139; 141; 162; 48; 87; 88; 139; 140; 144; 28; 29;
  221; 14; 15; 75; 76; 251; 252; 46; 47; 63; 92; 93; 95; 181; 226; 132; 141; 142; 145; 146; 169; 177; 186;
  187; 197; 198; 201; 202; 222; 228; 229; 255; 0; 4; 17; 18; 41; 49; 52; 55; 58; 59; 61; 73; 74; 93; 132; 142;
  146; 169; 177; 180; 186; 187; 198; 202; 206; 207; 228; 229; 0; 4; 13; 14; 17; 18; 41; 49; 52; 58; 59; 69;
  70; 73; 74; 94; 100; 101; 132; 145; 155; 157; 201; 206; 207; 13; 17; 41; 69; 73; 87; 100; 101; 141; 145;
  169; 180; 186; 187; 197; 201; 223; 228; 229; 240; 13; 17; 69; 73; 100; 101; 128; 132; 178; 188; 190; 191;
  213; 215; 240; 241; 131; 133; 139; 164; 166; 190; 191; 197; 199; 206; 207; 218; 219; 72; 152; 189; 205; 198;
  206; 207; 73; 78; 79; 87; 89; 94; 95; 137; 142; 143; 177; 182; 183; 191; 193; 198; 199; 215; 17; 22; 23; 91;
  92; 246; 247; 254; 255; 128; 13; 109; 113; 222; 223; 14; 15; 31; 110; 111; 28; 29; 95; 125; 126; 174; 175;
  187; 188; 250; 22; 23; 30; 31; 70; 71; 78; 79; 88; 90; 92; 94; 126; 127; 181; 197; 212; 213; 220; 240; 241;
  245; 114; 115; 143; 116; 117; 150; 47; 95; 38; 46; 47; 167; 175; 183; 191; 199; 207; 215; 223; 154; 64; 151;
  152; 48; 143; 31; 192; 193; 206; 255; 78; 79; 90; 91; 7; 8; 15; 16; 39; 47; 238; 239; 110; 111; 55; 61; 63;
  66; 69; 144; 145; 254; 255; 83; 103; 117; 200; 201; 208; 209; 216; 217; 231; 254; 255].
Definition singletons1 : list (Z * nat) := [(0, 6%nat); (1, 1%nat); (3, 1%nat); (4, 2%nat); (8, 8%nat); (9,
  2%nat); (10, 5%nat); (11, 2%nat); (14, 4%nat); (16, 1%nat); (17, 2%nat); (18, 5%nat); (19, 17%nat); (20,
  1%nat); (21, 2%nat); (23, 2%nat); (25, 13%nat); (28, 5%nat); (29, 8%nat); (36, 1%nat); (106, 3%nat); (107,
  2%nat); (188, 2%nat); (209, 2%nat); (212, 12%nat); (213, 9%nat); (214, 2%nat); (215, 2%nat); (218, 1%nat);
  (224, 5%nat); (225, 2%nat); (232, 2%nat); (238, 32%nat); (240, 4%nat); (248, 2%nat); (249, 2%nat); (250,
  2%nat); (251, 1%nat)].
Definition singletons1_lower : list Z := [12; 39; 59; 62; 78; 79; 143; 158; 158; 159; 6; 7; 9; 54; 61; 62; 86;
  243; 208; 209; 4; 20; 24; 54; 55; 86; 87; 127; 170; 174; 175; 189; 53; 224; 18; 135; 137; 142; 158; 4; 13;
  14; 17; 18; 41; 49; 52; 58; 69; 70; 73; 74; 78; 79; 100; 101; 92; 182; 183; 27; 28; 7; 8; 10; 11; 20; 23;
  54; 57; 58; 168; 169; 216; 217; 9; 55; 144; 145; 168; 7; 10; 59; 62; 102; 105; 143; 146; 111; 95; 238; 239;
  90; 98; 154; 155; 39; 40; 85; 157; 160; 161; 163; 164; 167; 168; 173; 186; 188; 196; 6; 11; 12; 21; 29; 58;
  63; 69; 81; 166; 167; 204; 205; 160; 7; 25; 26; 34; 37; 62; 63; 197; 198; 4; 32; 35; 37; 38; 40; 51; 56; 58;
  72; 74; 76; 80; 83; 85; 86; 88; 90; 92; 94; 96; 99; 101; 102; 107; 115; 120; 125; 127; 138; 164; 170; 175;
  176; 192; 208; 174; 175; 121; 204; 110; 111; 147].
Definition normal0 : list Z := [0; 32; 95; 34; 130; 223; 4; 130; 68; 8; 27; 4; 6; 17; 129; 172; 14; 128; 171;
  53; 40; 11; 128; 224; 3; 25; 8; 1; 4; 47; 4; 52; 4; 7; 3; 1; 7; 6; 7; 17; 10; 80; 15; 18; 7; 85; 7; 3; 4;
  28; 10; 9; 3; 8; 3; 7; 3; 2; 3; 3; 3; 12; 4; 5; 3; 11; 6; 1; 14; 21; 5; 58; 3; 17; 7; 6; 5; 16; 7; 87; 7; 2;
  7; 21; 13; 80; 4; 67; 3; 45; 3; 1; 4; 17; 6; 15; 12; 58; 4; 29; 37; 95; 32; 109; 4; 106; 37; 128; 200; 5;
  130; 176; 3; 26; 6; 130; 253; 3; 89; 7; 21; 11; 23; 9; 20; 12; 20; 12; 106; 6; 10; 6; 26; 6; 89; 7; 43; 5;
  70; 10; 44; 4; 12; 4; 1; 3; 49; 11; 44; 4; 26; 6; 11; 3; 128; 172; 6; 10; 6; 33; 63; 76; 4; 45; 3; 116; 8;
  60; 3; 15; 3; 60; 7; 56; 8; 43; 5; 130; 255; 17; 24; 8; 47; 17; 45; 3; 32; 16; 33; 15; 128; 140; 4; 130;
  151; 25; 11; 21; 136; 148; 5; 47; 5; 59; 7; 2; 14; 24; 9; 128; 179; 45; 116; 12; 128; 214; 26; 12; 5; 128;
  255; 5; 128; 223; 12; 238; 13; 3; 132; 141; 3; 55; 9; 129; 92; 20; 128; 184; 8; 128; 203; 42; 56; 3; 10; 6;
  56; 8; 70; 8; 12; 6; 116; 11; 30; 3; 90; 4; 89; 9; 128; 131; 24; 28; 10; 22; 9; 76; 4; 128; 138; 6; 171;
  164; 12; 23; 4; 49; 161; 4; 129; 218; 38; 7; 12; 5; 5; 128; 165; 17; 129; 109; 16; 120; 40; 42; 6; 76; 4;
  128; 141; 4; 128; 190; 3; 27; 3; 15; 13].
Definition normal1 : list Z := [94; 34; 123; 5; 3; 4; 45; 3; 102; 3; 1; 47; 46; 128; 130; 29; 3; 49; 15; 28;
  4; 36; 9; 30; 5; 43; 5; 68; 4; 14; 42; 128; 170; 6; 36; 4; 36; 4; 40; 8; 52; 11; 1; 128; 144; 129; 55; 9;
  22; 10; 8; 128; 152; 57; 3; 99; 8; 9; 48; 22; 5; 33; 3; 27; 5; 1; 64; 56; 4; 75; 5; 47; 4; 10; 7; 9; 7; 64;
  32; 39; 4; 12; 9; 54; 3; 58; 5; 26; 7; 4; 12; 7; 80; 73; 55; 51; 13; 51; 7; 46; 8; 10; 129; 38; 82; 78; 40;
  8; 42; 86; 28; 20; 23; 9; 78; 4; 30; 15; 67; 14; 25; 7; 10; 6; 72; 8; 39; 9; 117; 11; 63; 65; 42; 6; 59; 5;
  10; 6; 81; 6; 1; 5; 16; 3; 5; 128; 139; 98; 30; 72; 8; 10; 128; 166; 94; 34; 69; 11; 10; 6; 13; 19; 57; 7;
  10; 54; 44; 4; 16; 128; 192; 60; 100; 83; 12; 72; 9; 10; 70; 69; 27; 72; 8; 83; 29; 57; 129; 7; 70; 10; 29;
  3; 71; 73; 55; 3; 14; 8; 10; 6; 57; 7; 10; 129; 54; 25; 128; 183; 1; 15; 50; 13; 131; 155; 102; 117; 11;
  128; 196; 138; 188; 132; 47; 143; 209; 130; 71; 161; 185; 130; 57; 7; 42; 4; 2; 96; 38; 10; 70; 10; 40; 5;
  19; 130; 176; 91; 101; 75; 4; 57; 7; 17; 64; 5; 11; 2; 14; 151; 248; 8; 132; 214; 42; 9; 162; 247; 129; 31;
  49; 3; 17; 4; 8; 129; 140; 137; 4; 107; 5; 13; 3; 9; 7; 16; 147; 96; 128; 246; 10; 115; 8; 110; 23; 70; 128;
  154; 20; 12; 87; 9; 25; 128; 135; 129; 71; 3; 133; 66; 15; 21; 133; 80; 43; 128; 213; 45; 3; 26; 4; 2; 129;
  112; 58; 5; 1; 133; 0; 128; 215; 41; 76; 4; 10; 4; 2; 131; 17; 68; 76; 61; 128; 194; 60; 6; 1; 4; 85; 5; 27;
  52; 2; 129; 14; 44; 4; 100; 12; 86; 10; 128; 174; 56; 29; 13; 44; 4; 9; 7; 2; 14; 6; 128; 154; 131; 216; 8;
  13; 3; 13; 3; 116; 12; 89; 7; 12; 20; 12; 4; 56; 8; 10; 6; 40; 8; 34; 78; 129; 84; 12; 21; 3; 3; 5; 7; 9;
  25; 7; 7; 9; 3; 13; 7; 41; 128; 203; 37; 10; 132; 6].

(** is_printable(uint16_t, ...), 1509-1544. *)
Definition is_printable16 (x : Z) (singletons : list (Z * nat)) (lowers normal : list Z) : res bool :=
  let upper := Z.shiftr x 8 in
  let* found := loop (S (length singletons)) (fun '(i, lower_start) =>
    if decide (i < length singletons)%nat then
      let* (s_upper, lower_count) := get singletons i in
      let lower_end := (lower_start + lower_count)%nat in
      if decide (upper < s_upper) then Ok (inr false)
      else
        let* found :=
          if decide (upper = s_upper) then
            for_up lower_count lower_start (fun j found =>
              let* l := get lowers j in Ok (found || (l =? Z.land x 255))) false
          else Ok false in
        Ok (if (found : bool) then inr true else inl (S i, lower_end))
    else Ok (inr false)) (0%nat, 0%nat) in
  if (found : bool) then Ok false
  else
    loop (S (length normal)) (fun '(i, xsigned, current) =>
      if decide (i < length normal)%nat then
        let* v := get normal i in
        let* (i, len) :=
          if decide (Z.land v 128 <> 0) then
            let* n := get normal (S i) in Ok (S i, Z.lor (Z.shiftl (Z.land v 127) 8) n)
          else Ok (i, v) in
        let xsigned := xsigned - len in
        Ok (if decide (xsigned < 0) then inr current else inl (S i, xsigned, negb current))
      else Ok (inr current)) (0%nat, x, true).

(** is_printable(uint32_t), 1547-1690. *)
Definition is_printable (cp : Z) : res bool :=
  let lower := cp mod 2 ^ 16 in
  if decide (cp < 65536) then is_printable16 lower singletons0 singletons0_lower normal0
  else if decide (cp < 131072) then is_printable16 lower singletons1 singletons1_lower normal1
  else
    let out a b := (a <=? cp) && (cp <? b) in
    Ok (if out 0x2a6de 0x2a700 then false
        else if out 0x2b735 0x2b740 then false
        else if out 0x2b81e 0x2b820 then false
        else if out 0x2cea2 0x2ceb0 then false
        else if out 0x2ebe1 0x2f800 then false
        else if out 0x2fa1e 0x30000 then false
        else if out 0x3134b 0xe0100 then false
        else if out 0xe01f0 0x110000 then false
        else cp <? 0x110000).

(** ** format.h *)

(** needs_escape, 1988-1990. *)
Definition needs_escape (cp : Z) : res bool :=
  if decide (cp < 32) then Ok true
  else if decide (cp = 127) then Ok true
  else if decide (cp = 34) then Ok true
  else if decide (cp = 92) then Ok true
  else let* p := is_printable cp in Ok (negb p).

(** find_escape, 2017-2033, in [s] (is_utf8() is true): where the code point to escape starts and
    ends, and the code point; or none, and the end of [s]. *)
Definition find_escape (s : list Z) : res (nat * option (nat * Z)) :=
  for_each_codepoint (fun cp p n result =>
    let* e := needs_escape cp in
    Ok (if (e : bool) then (false, (p, Some ((p + n)%nat, cp))) else (true, result))) s (length s, None).

(** write_codepoint, 2060-2068. *)
Definition write_codepoint (width : nat) (out : list Z) (prefix cp : Z) : res (list Z) :=
  let* (buf, _) := format_uint 4 (replicate width (Some 48)) cp width false in
  let* cs := read_all buf in
  Ok (out ++ [92; prefix] ++ cs).

(** write_escaped_cp, 2070-2111, of the code point [cp] with the bytes [bs]. *)
Definition write_escaped_cp (out bs : list Z) (cp : Z) : res (list Z) :=
  if decide (cp = 10) then Ok (out ++ [92; 110])
  else if decide (cp = 13) then Ok (out ++ [92; 114])
  else if decide (cp = 9) then Ok (out ++ [92; 116])
  else if decide (cp = 34 \/ cp = 39 \/ cp = 92) then Ok (out ++ [92; cp])
  else if decide (cp < 256) then write_codepoint 2 out 120 cp
  else if decide (cp < 65536) then write_codepoint 4 out 117 cp
  else if decide (cp < 1114112) then write_codepoint 8 out 85 cp
  else for_up (length bs) 0 (fun i out => let* b := get bs i in write_codepoint 2 out 120 (Z.land b 255)) out.

(** write_escaped_string, 2113-2127. *)
Definition write_escaped_string (out str : list Z) : res (list Z) :=
  let* out := loop (S (length str)) (fun '(out, begin) =>
    let rest := drop begin str in
    let* (b, e) := find_escape rest in
    let out := out ++ take b rest in
    match e with
    | None => Ok (inr out)
    | Some (e, cp) =>
        let* out := write_escaped_cp out (take (e - b) (drop b rest)) cp in
        let begin := (begin + e)%nat in
        Ok (if decide (begin = length str) then inr out else inl (out, begin))
    end) (out ++ [34], 0%nat) in
  Ok (out ++ [34]).

(** write_escaped_char, 2129-2144: [v] is a signed char, so a byte over 127 becomes a large uint32_t. *)
Definition char_to_uint32 (v : Z) : Z := if decide (v < 128) then v else v - 256 + 2 ^ 32.
Definition write_escaped_char (out : list Z) (v : Z) : res (list Z) :=
  let out := out ++ [39] in
  let* e := needs_escape (char_to_uint32 v) in
  let* out :=
    if decide ((e = true /\ v <> 34) \/ v = 39) then write_escaped_cp out [v] (char_to_uint32 v)
    else Ok (out ++ [v]) in
  Ok (out ++ [39]).
