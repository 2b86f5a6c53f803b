(** String and StringView (string.hpp): properties C31-C35 and C88-C90. *)
From Verif Require Import Base.Cpp Base.Mem Model.Vector Model.Sequence Model.Str.
From Verif Require Import Spec.VectorSpec Spec.StrSpec Proofs.VectorProofs Proofs.StrProofs.

(** C31: along every history a String holds the characters of the list, and throws where it does. *)
Theorem C31_string_is_char_list i ops (m0 : mem nat) ts xs :
  sinit_ok i -> chars_run ops (sinit_chars i) = Some (ts, xs) ->
  (exists s m, str_after i ops m0 ts s m) /\
  (forall ts' s m, str_after i ops m0 ts' s m -> ts' = ts /\ vec_reads s m xs).
Proof.
  intros Hi Hl. split; [exact (str_after_ex i ops m0 ts xs Hi Hl)|].
  intros ts' s m Ha. destruct (str_after_inv _ _ _ _ _ _ _ _ Hi Ha Hl) as (-> & Hr & _).
  split; [reflexivity|]. exact (srep_reads m s xs Hr).
Qed.
Print Assumptions C31_string_is_char_list.

Example C31_example : sinit_ok (ICstr [97; 98; 99]) /\
  chars_run [CInsert 1 [120; 121]; CInsertN 5 [122; 0; 1] 2; CInsert 9 [1]; CBase (VErase 0); CAppend [33];
             CAppendN 2 46; CBase VPop; CAssign [104; 105]; CBase (VPush 33)] [97; 98; 99] =
  Some ([false; false; true; false; false; false; false; false; false], [104; 105; 33]) /\
  chars_run [CInsert 1 [120; 121]; CInsertN 5 [122; 0; 1] 2] [97; 98; 99] =
  Some ([false; false], [97; 120; 121; 98; 99; 122; 0]).
Proof. split_and!; [repeat constructor; discriminate|reflexivity..]. Qed.

(** C31: at, substr and copy after any history: the list's elements, a throw exactly when the
    position is out of range; substr leaves the string as it was. *)
Theorem C31_string_reads i ops (m0 : mem nat) ts xs s m :
  sinit_ok i -> chars_run ops (sinit_chars i) = Some (ts, xs) -> str_after i ops m0 ts s m ->
  (forall pos, str_at s pos m = match xs !! pos with Some c => Ok c | None => Throw end) /\
  (forall pos len, length xs < pos -> str_substr s pos len m = Throw) /\
  (forall pos len, pos <= length xs -> exists t m', str_substr s pos len m = Ok (t, m') /\
     vec_reads t m' (take len (drop pos xs)) /\ vec_reads s m' xs) /\
  (forall count pos, str_copy_out s count pos m =
     if decide (pos <= length xs)
     then Ok (take count (drop pos xs), length (take count (drop pos xs))) else Throw).
Proof.
  intros Hi Hl Ha. destruct (str_after_inv _ _ _ _ _ _ _ _ Hi Ha Hl) as (_ & Hr & _).
  split; [intros pos; exact (str_at_ok m s xs pos Hr)|].
  split.
  { intros pos len Hp. pose proof (str_substr_ok m s xs pos len Hr) as H.
    rewrite decide_False in H by lia. exact H. }
  split; [|intros count pos; exact (str_copy_ok m s xs count pos Hr)].
  intros pos len Hp. pose proof (str_substr_ok m s xs pos len Hr) as H.
  rewrite decide_True in H by lia. destruct H as (t & m' & E & Ht & _ & Hs & _).
  exists t, m'. split; [exact E|]. split; [exact (srep_reads _ _ _ Ht)|exact (srep_reads _ _ _ Hs)].
Qed.
Print Assumptions C31_string_reads.

Example C31_reads_example : take 2 (drop 1 [97; 98; 99; 100]) = [98; 99] /\
  take 9 (drop 4 [97; 98; 99; 100]) = [] /\ ~ 5 <= length [97; 98; 99; 100].
Proof. split_and!; [reflexivity|reflexivity|simpl; lia]. Qed.

(** C31: s += o for two different strings appends o and leaves o as it was. *)
Theorem C31_string_plus i1 ops1 ts1 xs i2 ops2 ts2 ys s o m :
  sinit_ok i1 -> chars_run ops1 (sinit_chars i1) = Some (ts1, xs) ->
  sinit_ok i2 -> chars_run ops2 (sinit_chars i2) = Some (ts2, ys) ->
  two_strings i1 ops1 i2 ops2 s o m ->
  exists s' m', str_plus s o m = Ok (s', m') /\ vec_reads s' m' (xs ++ ys) /\ vec_reads o m' ys.
Proof.
  intros Hi1 Hl1 Hi2 Hl2 H2.
  destruct (two_strings_inv _ _ _ _ _ _ _ _ _ _ _ Hi1 Hi2 Hl1 Hl2 H2) as (Hr1 & Hr2 & Hd & Hd').
  destruct (str_plus_rep m s xs o ys Hr1 Hr2 Hd') as (s' & m' & E & H1 & Ho & _).
  exists s', m'. split; [exact E|]. split; [exact (srep_reads _ _ _ H1)|exact (srep_reads _ _ _ Ho)].
Qed.
Print Assumptions C31_string_plus.

Example C31_plus_example : exists s o m, two_strings (ICstr [97]) [CAppend [98]] IDefault [CBase (VPush 99)] s o m.
Proof.
  apply (two_strings_ex _ _ _ _ [false] [false] [97; 98] [99]);
    [repeat constructor; discriminate|exact I|reflexivity|reflexivity].
Qed.

(** C31: destroying the string after any history releases its storage. *)
Theorem C31_string_lifetimes i ops (m0 : mem nat) ts xs s m :
  sinit_ok i -> chars_run ops (sinit_chars i) = Some (ts, xs) -> str_after i ops m0 ts s m ->
  exists m', vec_destroy chr s m = Ok m' /\ allocations m' = allocations m0.
Proof.
  intros Hi Hl Ha. destruct (str_after_inv _ _ _ _ _ _ _ _ Hi Ha Hl) as (_ & Hr & _ & Hf).
  destruct (str_destroy_rep m s xs Hr) as (m' & E & _ & Hal).
  exists m'. split; [exact E|]. destruct Hf as (_ & _ & _ & _ & Hc). unfold held in *. simpl in Hc. lia.
Qed.
Print Assumptions C31_string_lifetimes.

(** C32, where it holds: strings built in any way but (n, c) and used by anything but
    insert(pos, c_str) have room for the terminator once they are allocated, so c_str()
    returns content and NUL and changes nothing observable. *)
Theorem C32_cstr_partial i ops (m0 : mem nat) ts xs s m b :
  sinit_ok i -> chars_run ops (sinit_chars i) = Some (ts, xs) -> str_after i ops m0 ts s m ->
  init_room i = true -> forallb leaves_room ops = true -> v_data s = Blk b ->
  exists p m', str_cstr s m = Ok (p, m') /\ buffer_holds p m' (xs ++ [0]) /\ vec_reads s m' xs.
Proof.
  intros Hi Hl Ha H1 H2 Hd. destruct (str_after_inv _ _ _ _ _ _ _ _ Hi Ha Hl) as (_ & Hr & Hm & _).
  destruct (Hm H1 H2) as [Hn|Hlt]; [congruence|].
  destruct (str_cstr_ok m s xs b Hr Hd Hlt) as (m' & E & Hr' & _ & Hb).
  exists (Blk b), m'. split; [exact E|]. split; [exact Hb|exact (srep_reads _ _ _ Hr')].
Qed.
Print Assumptions C32_cstr_partial.

(** C32, where it holds: any string, however it came about, with capacity() > size(). *)
Theorem C32_cstr_spare_partial i ops (m0 : mem nat) ts xs s m :
  sinit_ok i -> chars_run ops (sinit_chars i) = Some (ts, xs) -> str_after i ops m0 ts s m ->
  v_size s < v_cap s ->
  exists p m', str_cstr s m = Ok (p, m') /\ buffer_holds p m' (xs ++ [0]) /\ vec_reads s m' xs.
Proof.
  intros Hi Hl Ha Hlt. destruct (str_after_inv _ _ _ _ _ _ _ _ Hi Ha Hl) as (_ & Hr & _).
  destruct (srep_get_blk m s xs Hr) as [Hn|[b Hd]].
  { destruct Hr as [Hs [(_ & -> & Hc)|(b & rest & Hd & _)]]; [simpl in *; lia|congruence]. }
  destruct (str_cstr_ok m s xs b Hr Hd Hlt) as (m' & E & Hr' & _ & Hb).
  exists (Blk b), m'. split; [exact E|]. split; [exact Hb|exact (srep_reads _ _ _ Hr')].
Qed.
Print Assumptions C32_cstr_spare_partial.

Example C32_example : exists s m, str_after (ICstr [97; 98]) [CInsertN 1 [120] 1; CAppend [99]] mem0 [false; false] s m /\
  v_size s = 4 /\ v_cap s = 7 /\ v_data s = Blk 2.
Proof.
  exists (Vec (Blk 2) 4 7), (Mem [None; None; Some [Live 97; Live 120; Live 98; Live 99; Raw; Raw; Raw]] 0).
  split; [|split_and!; reflexivity].
  exists (Vec (Blk 0) 2 3), (Mem [Some [Live 97; Live 98; Raw]] 0). split; reflexivity.
Qed.

(** C32 fails for a String without allocation: the terminator is written through null. *)
Theorem C32_cstr_empty_refuted (m : mem nat) : str_cstr vec_new m = UB NullDeref.
Proof. reflexivity. Qed.
Print Assumptions C32_cstr_empty_refuted.

(** C32 fails for every allocated string whose size is its capacity: one past the end is written. *)
Theorem C32_cstr_full_refuted i ops (m0 : mem nat) ts xs s m b :
  sinit_ok i -> chars_run ops (sinit_chars i) = Some (ts, xs) -> str_after i ops m0 ts s m ->
  v_data s = Blk b -> v_cap s = v_size s -> str_cstr s m = UB OutOfBounds.
Proof.
  intros Hi Hl Ha Hd Hc. destruct (str_after_inv _ _ _ _ _ _ _ _ Hi Ha Hl) as (_ & Hr & _).
  exact (str_cstr_full m s xs b Hr Hd Hc).
Qed.
Print Assumptions C32_cstr_full_refuted.

(** Such strings exist: String(n, c) is one for every n, and so is "ab" after insert(1, "xy"). *)
Example C32_full_example (n c : nat) :
  (exists s m, str_after (IFill n c) [] mem0 [] s m /\ v_cap s = v_size s /\ v_data s = Blk 0) /\
  (exists s m, str_after (ICstr [97; 98]) [CInsert 1 [120; 121]] mem0 [false] s m /\
     v_cap s = v_size s /\ v_data s = Blk 1).
Proof.
  split.
  - destruct (str_fill_rep mem0 n c) as (b & m & E & _ & -> & _).
    exists (Vec (Blk 0) n n), m. split; [|split; reflexivity].
    exists (Vec (Blk 0) n n), m. split; [exact E|reflexivity].
  - exists (Vec (Blk 1) 4 4), (Mem [None; Some [Live 97; Live 120; Live 121; Live 98]] 0).
    split; [|split; reflexivity].
    exists (Vec (Blk 0) 2 3), (Mem [Some [Live 97; Live 98; Raw]] 0). split; reflexivity.
Qed.

(** C33, where it holds: when the argument is at least as long as the string and the string is
    not a proper prefix of it, the result has the sign of the lexicographic order. *)
Theorem C33_compare_partial i1 ops1 ts1 xs i2 ops2 ts2 ys s o m :
  sinit_ok i1 -> chars_run ops1 (sinit_chars i1) = Some (ts1, xs) ->
  sinit_ok i2 -> chars_run ops2 (sinit_chars i2) = Some (ts2, ys) ->
  two_strings i1 ops1 i2 ops2 s o m ->
  length xs <= length ys -> (~ exists y tl, ys = xs ++ y :: tl) ->
  str_compare s o m = Ok (lex xs ys).
Proof.
  intros Hi1 Hl1 Hi2 Hl2 H2 Hlen Hpre.
  destruct (two_strings_inv _ _ _ _ _ _ _ _ _ _ _ Hi1 Hi2 Hl1 Hl2 H2) as (Hr1 & Hr2 & _).
  rewrite (str_compare_ok m s o xs ys Hr1 Hr2 Hlen). f_equal. exact (lex_not_prefix xs ys Hlen Hpre).
Qed.
Print Assumptions C33_compare_partial.

Example C33_example : lex [97; 98] [97; 99; 100] = (-1)%Z /\ lex [97; 99] [97; 98; 100] = 1%Z /\
  lex [97; 98] [97; 98] = 0%Z /\ lex [97] [97; 98] = (-1)%Z /\ lex [97; 98] [97] = 1%Z /\
  ~ exists y tl, [97; 99; 100] = [97; 98] ++ y :: tl.
Proof. split_and!; try reflexivity. intros (y & tl & H). discriminate. Qed.

(** C33, the part from pos on: the same for a substring, and a throw for a bad position. *)
Theorem C33_compare_at_partial i1 ops1 ts1 xs i2 ops2 ts2 ys s o m pos len :
  sinit_ok i1 -> chars_run ops1 (sinit_chars i1) = Some (ts1, xs) ->
  sinit_ok i2 -> chars_run ops2 (sinit_chars i2) = Some (ts2, ys) ->
  two_strings i1 ops1 i2 ops2 s o m ->
  (length xs < pos -> str_compare_at s pos len o m = Throw) /\
  (pos <= length xs -> let sub := take len (drop pos xs) in
   length sub <= length ys -> (~ exists y tl, ys = sub ++ y :: tl) ->
   str_compare_at s pos len o m = Ok (lex sub ys)).
Proof.
  intros Hi1 Hl1 Hi2 Hl2 H2.
  destruct (two_strings_inv _ _ _ _ _ _ _ _ _ _ _ Hi1 Hi2 Hl1 Hl2 H2) as (Hr1 & Hr2 & _).
  pose proof (str_compare_at_ok m s o xs ys pos len Hr1 Hr2) as H. split.
  - intros Hp. rewrite decide_False in H by lia. exact H.
  - intros Hp sub Hlen Hpre. rewrite decide_True in H by lia. rewrite (H Hlen). f_equal.
    exact (lex_not_prefix sub ys Hlen Hpre).
Qed.
Print Assumptions C33_compare_at_partial.

(** C33 fails whenever the string is a proper prefix of the argument: 0 instead of negative. *)
Theorem C33_compare_prefix_refuted i1 ops1 ts1 xs i2 ops2 ts2 y tl s o m :
  sinit_ok i1 -> chars_run ops1 (sinit_chars i1) = Some (ts1, xs) ->
  sinit_ok i2 -> chars_run ops2 (sinit_chars i2) = Some (ts2, xs ++ y :: tl) ->
  two_strings i1 ops1 i2 ops2 s o m ->
  str_compare s o m = Ok 0%Z /\ lex xs (xs ++ y :: tl) = (-1)%Z.
Proof.
  intros Hi1 Hl1 Hi2 Hl2 H2.
  destruct (two_strings_inv _ _ _ _ _ _ _ _ _ _ _ Hi1 Hi2 Hl1 Hl2 H2) as (Hr1 & Hr2 & _).
  split; [|exact (lex_prefix xs y tl)].
  rewrite (str_compare_ok m s o xs (xs ++ y :: tl) Hr1 Hr2) by (rewrite app_length; lia).
  rewrite take_app. f_equal. exact (proj2 (lex_eq xs xs) eq_refl).
Qed.
Print Assumptions C33_compare_prefix_refuted.

Example C33_prefix_example : exists s o m, two_strings (ICstr [97; 98]) [] (ICstr [97; 98; 99]) [] s o m.
Proof.
  apply (two_strings_ex _ _ _ _ [] [] [97; 98] [97; 98; 99]); try reflexivity;
    repeat constructor; discriminate.
Qed.

(** C33 fails for "xs x..." compared with "xs", both made from C strings: it reads an
    uninitialised character of the argument. *)
Theorem C33_compare_longer_refuted xs x tl (m0 : mem nat) s m1 o m :
  nul_free (xs ++ x :: tl) ->
  str_built (ICstr (xs ++ x :: tl)) m0 = Ok (s, m1) -> str_built (ICstr xs) m1 = Ok (o, m) ->
  str_compare s o m = UB Uninit.
Proof. exact (compare_past_fresh xs x tl m0 s m1 o m). Qed.
Print Assumptions C33_compare_longer_refuted.

Example C33_longer_example : exists s m1 o m,
  str_built (ICstr [97; 98; 99]) mem0 = Ok (s, m1) /\ str_built (ICstr [97; 98]) m1 = Ok (o, m) /\
  str_compare s o m = UB Uninit.
Proof.
  exists (Vec (Blk 0) 3 4), (Mem [Some [Live 97; Live 98; Live 99; Raw]] 0),
    (Vec (Blk 1) 2 3), (Mem [Some [Live 97; Live 98; Live 99; Raw]; Some [Live 97; Live 98; Raw]] 0).
  split_and!; reflexivity.
Qed.

(** C34 fails for every non-empty string: s += s never returns, it reads released storage
    after at most capacity() + 1 - size() steps. *)
Theorem C34_plus_self_refuted i ops (m0 : mem nat) ts xs s m :
  sinit_ok i -> chars_run ops (sinit_chars i) = Some (ts, xs) -> str_after i ops m0 ts s m ->
  xs <> [] ->
  (forall fuel r, str_plus_self fuel s m <> Ok r) /\
  (forall fuel, v_cap s - v_size s < fuel -> str_plus_self fuel s m = UB UseAfterFree).
Proof.
  intros Hi Hl Ha Hne. destruct (str_after_inv _ _ _ _ _ _ _ _ Hi Ha Hl) as (_ & Hr & _).
  assert (Hlen : 0 < length xs) by (destruct xs; [contradiction|simpl; lia]).
  assert (Hs : v_size s = length xs) by (destruct Hr; assumption).
  split; intros fuel; destruct (plus_self_loop fuel 0 m s xs Hr Hlen) as [H1 H2]; [exact H2|].
  intros Hf. apply H1. lia.
Qed.
Print Assumptions C34_plus_self_refuted.

(** C34 holds for the empty string. *)
Theorem C34_plus_self_partial i ops (m0 : mem nat) ts s m fuel :
  sinit_ok i -> chars_run ops (sinit_chars i) = Some (ts, []) -> str_after i ops m0 ts s m ->
  str_plus_self (S fuel) s m = Ok (s, m).
Proof.
  intros Hi Hl Ha. destruct (str_after_inv _ _ _ _ _ _ _ _ Hi Ha Hl) as (_ & [Hs _] & _).
  unfold str_plus_self. cbn [loop]. rewrite Hs. reflexivity.
Qed.
Print Assumptions C34_plus_self_partial.

Example C34_example : exists s m, str_after (ICstr [97]) [] mem0 [] s m /\ str_plus_self 3 s m = UB UseAfterFree.
Proof.
  exists (Vec (Blk 0) 1 2), (Mem [Some [Live 97; Raw]] 0). split; [|reflexivity].
  exists (Vec (Blk 0) 1 2), (Mem [Some [Live 97; Raw]] 0). split; reflexivity.
Qed.

(** C35: comparison with a C string. *)
Theorem C35_equals_cstr i ops (m0 : mem nat) ts xs s m b cs :
  sinit_ok i -> chars_run ops (sinit_chars i) = Some (ts, xs) -> str_after i ops m0 ts s m ->
  v_data s = Blk b -> nul_free cs ->
  exists r, str_eq_cstr s (c_string cs) m = Ok r /\ (r = true <-> xs = cs).
Proof.
  intros Hi Hl Ha Hd Hn. destruct (str_after_inv _ _ _ _ _ _ _ _ Hi Ha Hl) as (_ & Hr & _).
  exact (str_eq_cstr_ok m s xs cs b Hr Hd Hn).
Qed.
Print Assumptions C35_equals_cstr.

Example C35_example : exists s m, str_after IDefault [CBase (VPush 97); CAppend [98]; CBase VPop] mem0 [false; false; false] s m /\
  v_data s = Blk 1 /\ str_eq_cstr s (c_string [97]) m = Ok true /\ str_eq_cstr s (c_string [98]) m = Ok false.
Proof.
  exists (Vec (Blk 1) 1 3), (Mem [None; Some [Live 97; Live 98; Raw]] 0). split_and!; try reflexivity.
  exists vec_new, mem0. split; reflexivity.
Qed.

(** C88 fails: a String without allocation does not compare equal to "" although it is empty. *)
Theorem C88_empty_equals_refuted (m : mem nat) :
  vec_reads vec_new m [] /\ str_eq_cstr vec_new (c_string []) m = Ok false.
Proof. split; [|reflexivity]. apply srep_reads. split; [reflexivity|left; split_and!; reflexivity]. Qed.
Print Assumptions C88_empty_equals_refuted.

(** C88 holds for every empty string that has an allocation. *)
Theorem C88_empty_equals_partial i ops (m0 : mem nat) ts s m b :
  sinit_ok i -> chars_run ops (sinit_chars i) = Some (ts, []) -> str_after i ops m0 ts s m ->
  v_data s = Blk b -> str_eq_cstr s (c_string []) m = Ok true.
Proof.
  intros Hi Hl Ha Hd. destruct (C35_equals_cstr i ops m0 ts [] s m b [] Hi Hl Ha Hd) as (r & E & Hr).
  { constructor. }
  rewrite E. f_equal. apply Hr. reflexivity.
Qed.
Print Assumptions C88_empty_equals_partial.

Example C88_example : exists s m, str_after (ICstr []) [] mem0 [] s m /\ v_data s = Blk 0.
Proof.
  exists (Vec (Blk 0) 0 1), (Mem [Some [Raw]] 0). split; [|reflexivity].
  exists (Vec (Blk 0) 0 1), (Mem [Some [Raw]] 0). split; reflexivity.
Qed.

(** C89: a StringView of a string views its characters and compares with C strings by content. *)
Theorem C89_view_cstr i ops (m0 : mem nat) ts xs s m b cs :
  sinit_ok i -> chars_run ops (sinit_chars i) = Some (ts, xs) -> str_after i ops m0 ts s m ->
  v_data s = Blk b -> nul_free cs ->
  exists v r, sview_of_str s = Ok v /\ view_iter v m = Ok xs /\
    sview_eq_cstr v (c_string cs) m = Ok r /\ (r = true <-> xs = cs).
Proof.
  intros Hi Hl Ha Hd Hn. destruct (str_after_inv _ _ _ _ _ _ _ _ Hi Ha Hl) as (_ & Hr & _).
  exact (sview_eq_cstr_ok m s xs cs b Hr Hd Hn).
Qed.
Print Assumptions C89_view_cstr.

(** C89: a StringView made from a C string stored anywhere views exactly its characters. *)
Theorem C89_view_of_cstr (m : mem nat) b off cs cells :
  blk m b cells -> nul_free cs ->
  (forall i c, c_string cs !! i = Some c -> cells !! (off + i) = Some (Live c)) ->
  exists v, sview_of_cstr b off m = Ok v /\ view_iter v m = Ok cs.
Proof. exact (sview_of_cstr_ok m b off cs cells). Qed.
Print Assumptions C89_view_of_cstr.

Example C89_of_cstr_example : exists v,
  let m := Mem [Some [Live 1; Live 97; Live 98; Live 0; Raw]] 0 in
  sview_of_cstr 0 1 m = Ok v /\ view_iter v m = Ok [97; 98].
Proof. exists (View (CAt 0 1) 2 (Some 0)). split; reflexivity. Qed.

(** C89 fails for two StringViews: views of two different strings are never equal, whatever
    the contents. *)
Theorem C89_view_equality_refuted i1 ops1 ts1 xs i2 ops2 ts2 ys s o m b b' :
  sinit_ok i1 -> chars_run ops1 (sinit_chars i1) = Some (ts1, xs) ->
  sinit_ok i2 -> chars_run ops2 (sinit_chars i2) = Some (ts2, ys) ->
  two_strings i1 ops1 i2 ops2 s o m -> v_data s = Blk b -> v_data o = Blk b' ->
  exists v w, sview_of_str s = Ok v /\ sview_of_str o = Ok w /\ sview_eq v w = Ok false.
Proof.
  intros Hi1 Hl1 Hi2 Hl2 H2 Hs Ho.
  destruct (two_strings_inv _ _ _ _ _ _ _ _ _ _ _ Hi1 Hi2 Hl1 Hl2 H2) as (_ & _ & Hd & _).
  apply (sview_eq_other s o b b' Hs Ho). intros ->. exact (Hd b' Hs Ho).
Qed.
Print Assumptions C89_view_equality_refuted.

Example C89_example : exists s o m, two_strings (ICstr [97]) [] (ICstr [97]) [] s o m /\
  v_data s = Blk 0 /\ v_data o = Blk 1.
Proof.
  exists (Vec (Blk 0) 1 2), (Vec (Blk 1) 1 2), (Mem [Some [Live 97; Raw]; Some [Live 97; Raw]] 0).
  split_and!; try reflexivity. exists [], [], (Mem [Some [Live 97; Raw]] 0). split.
  - exists (Vec (Blk 0) 1 2), (Mem [Some [Live 97; Raw]] 0). split; reflexivity.
  - exists (Vec (Blk 1) 1 2), (Mem [Some [Live 97; Raw]; Some [Live 97; Raw]] 0). split; reflexivity.
Qed.

(** C90, where it holds: s.assign(s.c_str()) keeps the content; s.append(s.c_str()) doubles it
    when no reallocation is needed. *)
Theorem C90_own_cstr_partial i ops (m0 : mem nat) ts xs s m :
  sinit_ok i -> chars_run ops (sinit_chars i) = Some (ts, xs) -> str_after i ops m0 ts s m ->
  nul_free xs -> v_size s < v_cap s ->
  (exists s' m', str_assign_own s m = Ok (s', m') /\ vec_reads s' m' xs) /\
  (2 * v_size s < v_cap s -> exists s' m', str_append_own s m = Ok (s', m') /\ vec_reads s' m' (xs ++ xs)).
Proof.
  intros Hi Hl Ha Hn Hlt. destruct (str_after_inv _ _ _ _ _ _ _ _ Hi Ha Hl) as (_ & Hr & _).
  assert (Hs : v_size s = length xs) by (destruct Hr; assumption). rewrite Hs in *.
  destruct (srep_get_blk m s xs Hr) as [Hnl|[b Hd]].
  { destruct Hr as [_ [(_ & -> & Hc)|(b & rest & Hd & _)]]; [simpl in *; lia|congruence]. }
  split.
  - destruct (assign_own_ok m s xs b Hr Hd Hn Hlt) as (s' & m' & E & Hr').
    exists s', m'. split; [exact E|exact (srep_reads _ _ _ Hr')].
  - intros Hc. destruct (append_own_ok m s xs b Hr Hd Hn Hc) as (s' & m' & E & Hr').
    exists s', m'. split; [exact E|exact (srep_reads _ _ _ Hr')].
Qed.
Print Assumptions C90_own_cstr_partial.

Example C90_example : exists s m, str_after (ICstr [97; 98]) [CBase (VReserve 5)] mem0 [false] s m /\
  v_size s = 2 /\ v_cap s = 5.
Proof.
  exists (Vec (Blk 1) 2 5), (Mem [None; Some [Live 97; Live 98; Raw; Raw; Raw]] 0). split_and!; try reflexivity.
  exists (Vec (Blk 0) 2 3), (Mem [Some [Live 97; Live 98; Raw]] 0). split; reflexivity.
Qed.

(** C90 fails for every non-empty string whose capacity is at most twice its size:
    append(c_str()) reads released storage; so does insert(pos, c_str()) below twice the size. *)
Theorem C90_own_cstr_refuted i ops (m0 : mem nat) ts xs s m :
  sinit_ok i -> chars_run ops (sinit_chars i) = Some (ts, xs) -> str_after i ops m0 ts s m ->
  nul_free xs -> xs <> [] -> v_size s < v_cap s ->
  (v_cap s <= 2 * v_size s -> str_append_own s m = UB UseAfterFree) /\
  (forall pos, pos <= length xs -> v_cap s < 2 * v_size s -> str_insert_own s pos m = UB UseAfterFree).
Proof.
  intros Hi Hl Ha Hn Hne Hlt. destruct (str_after_inv _ _ _ _ _ _ _ _ Hi Ha Hl) as (_ & Hr & _).
  assert (Hs : v_size s = length xs) by (destruct Hr; assumption). rewrite Hs in *.
  destruct (srep_get_blk m s xs Hr) as [Hnl|[b Hd]].
  { destruct Hr as [_ [(_ & -> & Hc)|(b & rest & Hd & _)]]; [simpl in *; lia|congruence]. }
  split.
  - intros Hc. apply (append_own_ub m s xs b Hr Hd Hn Hne). lia.
  - intros pos Hp Hc. apply (insert_own_ub m s xs b pos Hr Hd Hn Hne Hp). lia.
Qed.
Print Assumptions C90_own_cstr_refuted.

(** C90 fails with room to spare too: "abc".insert(1, own c_str()) gives "aaaabc"
    (97 97 97 97 98 99), not "aabcbc". *)
Theorem C90_insert_own_refuted : exists s m s' m',
  str_after (ICstr [97; 98; 99]) [CBase (VReserve 9)] mem0 [false] s m /\
  str_insert_own s 1 m = Ok (s', m') /\ vec_iter s' m' = Ok [97; 97; 97; 97; 98; 99] /\
  take 1 [97; 98; 99] ++ [97; 98; 99] ++ drop 1 [97; 98; 99] = [97; 97; 98; 99; 98; 99].
Proof.
  exists (Vec (Blk 1) 3 9), (Mem [None; Some [Live 97; Live 98; Live 99; Raw; Raw; Raw; Raw; Raw; Raw]] 0),
    (Vec (Blk 1) 6 9), (Mem [None; Some [Live 97; Live 97; Live 97; Live 97; Live 98; Live 99; Raw; Raw; Raw]] 0).
  split; [|split_and!; reflexivity].
  exists (Vec (Blk 0) 3 4), (Mem [Some [Live 97; Live 98; Live 99; Raw]] 0). split; reflexivity.
Qed.
Print Assumptions C90_insert_own_refuted.
