(** The text of values (fmt/format.h): properties C79 and C108 to C118. Chars are bytes. *)
From Coq Require Import Strings.String.
From Verif Require Import Base.Cpp Model.Numeric Model.FmtInt Model.Utf8 Model.Escape Model.Format.
From Verif Require Import Spec.FormatSpec Spec.Utf8Spec Spec.EscapeSpec Spec.FieldSpec.
From Verif Require Import Proofs.FmtIntProofs Proofs.Utf8Decode Proofs.Utf8Proofs Proofs.EscapeProofs.
From Verif Require Import Proofs.FormatWrite Proofs.GroupingProofs Proofs.FormatValue.
Local Open Scope Z_scope.

(** ** C79: integers are formatted in decimal *)

(** format("{}", z), for every integer type of at most 64 bits, for every value of the type, and whether
    or not the output has room for the digits. *)
Theorem C79_decimal E t z : 1 <= bits t <= 64 -> in_range t z = true ->
  exists s, vformat E (Args [AScalar (VInt t z)] []) [123; 125] = Ok s /\ decimal z s.
Proof.
  intros Ht Hz. destruct (write_default_value_ok E t z Ht Hz) as (s & Hs & Hout). exists s. split; [|done].
  exact (Hout []).
Qed.
Print Assumptions C79_decimal.

(** The text gives back the integer, and there is one such text. *)
Theorem C79_reads_back z z' s : decimal z s -> decimal z' s -> z = z'.
Proof. apply decimal_inj. Qed.
Print Assumptions C79_reads_back.
Theorem C79_one_text z s s' : decimal z s -> decimal z s' -> s = s'.
Proof. apply decimal_unique. Qed.
Print Assumptions C79_one_text.

(** The least long. *)
Example C79_long_min :
  let E := Env (fun _ _ => false) [] [] 46 in
  vformat E (Args [AScalar (VInt (ITy 64 true) (- 2 ^ 63))] []) [123; 125] = Ok (lit "-9223372036854775808")
  /\ in_range (ITy 64 true) (- 2 ^ 63) = true.
Proof. vm_compute. split; reflexivity. Qed.

(** ** C108: digits are counted exactly *)

(** [c] digits are needed and suffice, by each of the ways there are to count. *)
Theorem C108_count_digits w n : w = 32 \/ w = 64 -> 0 <= n < 2 ^ w ->
  exists c, 1 <= c /\ n < 10 ^ c /\ (c = 1 \/ 10 ^ (c - 1) <= n) /\
    count_digits w n = Ok c /\ count_digits_fallback n = Ok c.
Proof.
  intros Hw Hn. destruct (count_digits_ok w n Hw Hn) as (c & Hc & Hd). destruct (count_digits_fallback_ok n) as (c' & Hc' & Hd'); [lia|].
  assert (c = c') as <- by (eapply (ndigits_unique 10); [lia| |exact Hd|exact Hd']; lia).
  exists c. destruct Hd as (? & ? & ?). done.
Qed.
Print Assumptions C108_count_digits.
Theorem C108_count_digits_bits w bits n : w = 32 \/ w = 64 -> 1 <= bits -> 0 <= n < 2 ^ w ->
  exists c, 1 <= c /\ n < (2 ^ bits) ^ c /\ (c = 1 \/ (2 ^ bits) ^ (c - 1) <= n) /\ count_digits_bits w bits n = Ok c.
Proof.
  intros Hw Hb Hn. destruct (count_digits_bits_ok w bits n Hw ltac:(lia) Hn) as (c & Hc & ? & ? & ?). exists c. done.
Qed.
Print Assumptions C108_count_digits_bits.

Example C108_largest : count_digits 64 (2 ^ 64 - 1) = Ok 20 /\ count_digits 32 999999999 = Ok 9 /\ count_digits_bits 64 3 (2 ^ 64 - 1) = Ok 22.
Proof. vm_compute. auto. Qed.

(** ** C109: text is decoded as UTF-8 says *)

(** Any loop over the code points of a byte string visits its pieces in order, each with its position and
    length, until the callback stops it; it reads nothing outside the string. *)
Fixpoint visit {St} (f : Z -> nat -> nat -> St -> res (bool * St)) (ps : list (option Z * list Z)) (p : nat) (st : St) : res St :=
  match ps with
  | [] => Ok st
  | (c, bs) :: ps =>
      let* (go_on, st) := f (match c with Some cp => cp | None => invalid_code_point end) p (length bs) st in
      if (go_on : bool) then visit f ps (p + length bs) st else Ok st
  end.
Theorem C109_decodes {St} (f : Z -> nat -> nat -> St -> res (bool * St)) s st : Forall is_byte s ->
  exists ps, pieces s ps /\ concat (map snd ps) = s /\ for_each_codepoint f s st = visit f ps 0 st.
Proof.
  intros Hs. destruct (pieces_exist s Hs) as [ps Hps]. exists ps. split; [done|]. split; [by apply pieces_concat|].
  rewrite (for_each_ok f s ps st) by done. clear. generalize 0%nat as p. revert st.
  induction ps as [|[c bs] ps IH]; intros st p; [done|]. cbn [run visit].
  replace (default invalid_code_point c) with (match c with Some cp => cp | None => invalid_code_point end) by (by destruct c).
  destruct (f _ _ _ _) as [[[] st']| | |]; cbn [bind]; [apply IH|done..].
Qed.
Print Assumptions C109_decodes.
(** There is one way to cut a string in pieces. *)
Theorem C109_one_way s ps ps' : pieces s ps -> pieces s ps' -> ps = ps'.
Proof. apply pieces_functional. Qed.
Print Assumptions C109_one_way.

(** a, U+00E9, a stray byte, U+20AC, U+1F600, the start of a code point. *)
Definition some_text : list Z := [97; 195; 169; 128; 226; 130; 172; 240; 159; 152; 128; 195].
Example C109_some_text :
  for_each_codepoint (fun cp p n l => Ok (true, l ++ [(cp, Z.of_nat p, Z.of_nat n)])) some_text []
  = Ok [(97, 0, 1); (233, 1, 2); (invalid_code_point, 3, 1); (8364, 4, 3); (128512, 7, 4); (invalid_code_point, 11, 1)]
  /\ Forall is_byte some_text.
Proof. split; [vm_compute; reflexivity|]. unfold some_text, is_byte. repeat constructor; lia. Qed.

(** ** C110: the width of a text *)

Theorem C110_width s : Forall is_byte s -> exists n, compute_width s = Ok n /\ columns s n.
Proof. intros Hs. apply compute_width_columns, Hs. Qed.
Print Assumptions C110_width.
Theorem C110_width_ascii s : Forall (fun b => 0 <= b <= 127) s -> compute_width s = Ok (Z.of_nat (length s)).
Proof. apply ascii_width. Qed.
Print Assumptions C110_width_ascii.
Example C110_some_text : compute_width some_text = Ok 7.
Proof. vm_compute. reflexivity. Qed.

(** ** C111: a precision does not split a code point *)

(** Truncation to [n] keeps the first [n] pieces whole. *)
Theorem C111_truncation s n : Forall is_byte s -> 0 <= n ->
  exists ps i, pieces s ps /\ code_point_index s n = Ok i /\ take i s = concat (map snd (take (Z.to_nat n) ps)).
Proof.
  intros Hs Hn. destruct (pieces_exist s Hs) as [ps Hps]. eexists ps, _. split; [done|].
  split; [by apply code_point_index_ok|]. by apply take_pieces.
Qed.
Print Assumptions C111_truncation.
Example C111_some_text : code_point_index some_text 2 = Ok 3%nat /\ code_point_index some_text 4 = Ok 7%nat
  /\ code_point_index some_text 100 = Ok 12%nat.
Proof. vm_compute. auto. Qed.

(** ** C112: debug text of strings *)

(** The pieces of the string in quotes, those that need it escaped. [is_printable] returns for every
    code point, and decides which of the others are. *)
Theorem C112_debug_string out s : Forall is_byte s ->
  exists pr ps, (forall cp, is_printable cp = Ok (pr cp)) /\ pieces s ps /\ write_escaped_string out s = Ok (out ++ quoted pr ps).
Proof.
  intros Hs. destruct (pieces_exist s Hs) as [ps Hps]. exists printable, ps. split; [|split; [done|by apply write_escaped_string_ok]].
  intros cp. unfold printable. by destruct (is_printable_ok cp) as (b & -> & _).
Qed.
Print Assumptions C112_debug_string.
Example C112_some_text :
  write_escaped_string [] (some_text ++ [34; 10; 226; 128; 139]) = Ok ([34; 97; 195; 169] ++ lit "\x80" ++ [226; 130; 172; 240; 159; 152; 128] ++ lit "\xc3" ++ [92; 34] ++ lit "\n\u200b" ++ [34]).
Proof. vm_compute. reflexivity. Qed.

(** ** C113: debug text tells strings apart *)

(** Strings that are UTF-8, that is. *)
Theorem C113_debug_tells_apart_partial s s' ps ps' t :
  Forall is_byte s -> Forall is_byte s' -> pieces s ps -> pieces s' ps' ->
  Forall (fun p => p.1 <> None) ps -> Forall (fun p => p.1 <> None) ps' ->
  write_escaped_string [] s = Ok t -> write_escaped_string [] s' = Ok t -> s = s'.
Proof.
  intros Hs Hs' Hps Hps' Hv Hv' H H'. rewrite (write_escaped_string_ok [] s ps) in H by done.
  rewrite (write_escaped_string_ok [] s' ps') in H' by done.
  assert (Hq : quoted printable ps = quoted printable ps') by (change (Ok (quoted printable ps) = Ok t) in H; change (Ok (quoted printable ps') = Ok t) in H'; congruence).
  apply quoted_inj in Hq; [|by eapply valid_pieces|by eapply valid_pieces]. subst ps'.
  by rewrite <- (pieces_concat s ps), <- (pieces_concat s' ps).
Qed.
Print Assumptions C113_debug_tells_apart_partial.
(** Not strings in general: a control code point has the text of a byte that is none. *)
Theorem C113_debug_tells_apart_refuted b : 128 <= b <= 159 ->
  exists t, write_escaped_string [] [b] = Ok t /\ write_escaped_string [] (encode b) = Ok t /\ [b] <> encode b.
Proof.
  intros Hb.
  assert (H : forallb (fun k => let b := 128 + Z.of_nat k in
    match write_escaped_string [] [b], write_escaped_string [] (encode b) with
    | Ok t, Ok t' => bool_decide (t = t') | _, _ => false end) (seq 0 32) = true) by (vm_compute; reflexivity).
  rewrite forallb_forall in H. specialize (H (Z.to_nat (b - 128))). rewrite in_seq in H. specialize (H ltac:(lia)). cbv zeta in H.
  replace (128 + Z.of_nat (Z.to_nat (b - 128))) with b in H by lia.
  destruct (write_escaped_string [] [b]) as [t| | |]; [|done..]. destruct (write_escaped_string [] (encode b)) as [t'| | |]; [|done..].
  apply bool_decide_eq_true in H as <-. exists t. split; [done|]. split; [done|].
  unfold encode. rewrite decide_False, decide_True by lia. done.
Qed.
Print Assumptions C113_debug_tells_apart_refuted.

(** ** C114: a number in a field *)

(** write(out, z, specs) appends the text the field asks for: for every integer type, value, fill,
    alignment, sign, base, prefix, width, flag and locale. *)
Theorem C114_int_field E t z f w wr pr out :
  (grouping E = [] -> sep E = []) -> (length (sep E) <= 1)%nat -> 1 <= bits t <= 64 -> in_range t z = true -> 0 <= w < 2 ^ 31 ->
  f_type f <> Some AsString -> f_type f <> Some AsDebug -> f_type f <> Some AsPointer -> (forall st u, f_type f <> Some (AsFloat st u)) ->
  exists text, int_shows (Locale (sep E) (grouping E)) f w z text /\
    write_value E out (VInt t z) (specs_of f w (-1) wr pr) = Ok (out ++ text).
Proof.
  intros HE Hsep Ht Hz Hw H1 H2 H3 H4. destruct (int_shows_ok E t z f w wr pr HE Hsep Ht Hz Hw (conj H1 (conj H2 (conj H3 H4)))) as (text & Htext & Hout).
  exists text. split; [done|]. apply Hout.
Qed.
Print Assumptions C114_int_field.
Example C114_fields :
  let E := Env (fun _ _ => true) [3] [44] 46 in
  let f al z l t := Field [42] al (Some Plus) true z (Number 12) NoCount l t in
  write_value E [] (VInt int32 (-255)) (specs_of (f (Some PlCenter) false false (Some (InBase (Hex true)))) 12 (-1) RNone RNone) = Ok (lit "***-0XFF****")
  /\ write_value E [] (VInt int32 255) (specs_of (f None true false (Some (InBase (Bin false)))) 12 (-1) RNone RNone) = Ok (lit "+0b011111111")
  /\ write_value E [] (VInt int32 1234567) (specs_of (f None false true None) 12 (-1) RNone RNone) = Ok (lit "**+1,234,567").
Proof. vm_compute. auto. Qed.

(** ** C115: booleans, chars and strings in a field *)

Theorem C115_bool_field E b f w wr pr out :
  (grouping E = [] -> sep E = []) -> (length (sep E) <= 1)%nat -> 0 <= w < 2 ^ 31 -> admits KBool f ->
  exists text, bool_shows (Locale (sep E) (grouping E)) f w b text /\
    write_value E out (VBool b) (specs_of f w (-1) wr pr) = Ok (out ++ text).
Proof.
  intros HE Hsep Hw [Ha _]. destruct (bool_shows_ok E b f w wr pr HE Hsep Hw) as (text & Htext & Hout).
  - intros H. by rewrite H in Ha.
  - intros H. by rewrite H in Ha.
  - intros st u H. by rewrite H in Ha.
  - exists text. split; [done|]. apply Hout.
Qed.
Print Assumptions C115_bool_field.
Theorem C115_char_field E c f w wr pr out :
  (grouping E = [] -> sep E = []) -> (length (sep E) <= 1)%nat -> 0 <= w < 2 ^ 31 -> 0 <= c <= 255 -> admits KChar f ->
  exists debug text, write_escaped_char [] c = Ok debug /\
    char_value_shows (Locale (sep E) (grouping E)) debug f w c text /\
    write_value E out (VChar c) (specs_of f w (-1) wr pr) = Ok (out ++ text).
Proof.
  intros HE Hsep Hw Hc Ha. destruct (char_value_shows_ok E c f w wr pr HE Hsep Hw Hc Ha) as (text & Htext & Hout).
  exists (debug_char c), text. split; [by apply (debug_char_ok [])|]. split; [done|]. apply Hout.
Qed.
Print Assumptions C115_char_field.
Theorem C115_string_field E s f w p wr pr out :
  0 <= w < 2 ^ 31 -> -1 <= p -> Forall is_byte s -> admits KString f ->
  exists debug text, write_escaped_string [] s = Ok debug /\
    string_shows columns debug f w (if decide (0 <= p) then Some p else None) s text /\
    write_value E out (VStr s) (specs_of f w p wr pr) = Ok (out ++ text).
Proof.
  intros Hw Hp Hs [Ha _]. destruct (pieces_exist s Hs) as [ps Hps].
  destruct (string_shows_ok E s ps f w p wr pr Hw Hp Hs Hps) as (text & Htext & Hout).
  - destruct (f_type f) as [[b| | | | |]|]; [by destruct b|done|by right; left|by right; right|done|done|by left].
  - exists (quoted printable ps), text. split; [by apply (write_escaped_string_ok [])|]. split; [done|]. apply Hout.
Qed.
Print Assumptions C115_string_field.
Example C115_fields :
  let E := Env (fun _ _ => true) [] [] 46 in
  let f al t := Field [226; 128; 162] al None false false (Number 9) NoCount false t in
  write_value E [] (VStr some_text) (specs_of (f (Some PlRight) (Some AsString)) 7 4 RNone RNone)
    = Ok ([226; 128; 162; 226; 128; 162; 226; 128; 162] ++ take 7 some_text)
  /\ write_value E [] (VBool true) (specs_of (f (Some PlLeft) None) 5 (-1) RNone RNone) = Ok (lit "true" ++ [226; 128; 162])
  /\ write_value E [] (VChar 10) (specs_of (f None (Some AsDebug)) 0 (-1) RNone RNone) = Ok (lit "'\n'").
Proof. vm_compute. auto. Qed.

(** ** C116: a field is as wide as asked *)

(** A char in debug form is not padded to the width asked for: it counts as one place, and takes three or
    more. *)
Theorem C116_debug_char_width_refuted E c w out : 33 <= c <= 126 -> c <> 39 -> c <> 34 -> c <> 92 -> 3 <= w < 2 ^ 31 ->
  exists text, write_value E out (VChar c) (specs_of (Field [] None None false false (Number w) NoCount false (Some AsDebug)) w (-1) RNone RNone)
    = Ok (out ++ text) /\ Z.of_nat (length text) = w + 2.
Proof.
  intros Hc H1 H2 H3 Hw. set (f := Field _ _ _ _ _ _ _ _ _).
  assert (Hd : debug_char c = [39; c; 39]).
  { assert (H : forallb (fun k => let c := 33 + Z.of_nat k in
      (c =? 39) || (c =? 34) || (c =? 92) || bool_decide (debug_char c = [39; c; 39])) (seq 0 94) = true) by (vm_compute; reflexivity).
    rewrite forallb_forall in H. specialize (H (Z.to_nat (c - 33))). rewrite in_seq in H. specialize (H ltac:(lia)). cbv zeta in H.
    replace (33 + Z.of_nat (Z.to_nat (c - 33))) with c in H by lia.
    rewrite !orb_true_iff, !Z.eqb_eq in H. destruct H as [[[?|?]|?]|H]; [lia..|]. by apply bool_decide_eq_true in H. }
  eexists. split.
  - unfold write_value, check_char_specs. cbn [typ al sgn alt specs_of f f_type pres_of].
    rewrite decide_False by (intros [?|[?|?]]; done). cbn [bind]. unfold write_char.
    rewrite (write_padded_ok _ _ _ _ _ _ (debug_char c)); [reflexivity|cbn; lia|lia|].
    intros it. apply debug_char_ok. unfold is_byte. lia.
  - cbn [width fill al specs_of f]. unfold in_field. rewrite Hd. cbn. rewrite copies_one, replicate_length. lia.
Qed.
Print Assumptions C116_debug_char_width_refuted.

(** Numbers, bools, other chars, and strings are, where their text is shorter: in columns. *)
Theorem C116_width_ascii_partial p fill w n text : length fill = 1%nat -> 0 <= n -> n = Z.of_nat (length text) ->
  Z.of_nat (length (in_field p fill w n text)) = Z.max w n.
Proof.
  intros Hf Hn Hlen. destruct fill as [|c [|]]; try done. unfold in_field.
  assert (Hc : forall k, 0 <= k -> Z.of_nat (length (copies k [c])) = k) by (intros k Hk; rewrite copies_one, replicate_length; lia).
  set (m := Z.max 0 (w - n)). assert (Hm : 0 <= m) by lia.
  assert (0 <= m / 2 <= m) by (split; [apply Z.div_pos; lia|apply Z.div_le_upper_bound; lia]).
  destruct p; cbn [padded]; rewrite !app_length, !Nat2Z.inj_add, ?Hc by lia; lia.
Qed.
Print Assumptions C116_width_ascii_partial.

(** ** C117: zeros go between the sign and the digits *)

Theorem C117_zero_padding_partial E t z f w wr pr out : 1 <= bits t <= 64 -> in_range t z = true -> 0 <= w < 2 ^ 31 ->
  f_zero f = true -> f_align f = None -> f_local f = false -> f_alternate f = false -> f_type f = None ->
  exists digits, numeral 10 false (Z.abs z) digits /\
    let sign := sign_text (plus_text f) z in
    write_value E out (VInt t z) (specs_of f w (-1) wr pr)
    = Ok (out ++ sign ++ copies (w - Z.of_nat (length (sign ++ digits))) [48] ++ digits).
Proof.
  intros Ht Hz Hw H0 Ha Hl Halt Hty. destruct (in_range_uwidth t z Ht Hz) as [Hr _]. pose proof (uwidth_cases t) as Hcase.
  destruct (number_shows_ok E z f w wr pr (uwidth t) Dec) as (text & Htext & Hout); [done|lia|done|done|by rewrite Hty|].
  unfold number_shows in Htext. rewrite Hl in Htext. unfold zero_padded in Htext. rewrite H0, Ha in Htext. cbn [andb] in Htext.
  destruct Htext as (zeros & (digits & Hd & ->) & Hzeros). exists digits. split; [done|]. cbv zeta.
  cbn [write_value]. unfold write_int_specs. cbn [sgn specs_of]. rewrite make_write_int_arg_ok by done. cbn [localized specs_of].
  rewrite Hl, Hout. rewrite Halt in *. cbn [app] in *. do 4 f_equal.
  rewrite !app_length, copies_one, replicate_length in Hzeros. rewrite app_length.
  assert (zeros = Z.max 0 (w - Z.of_nat (length (sign_text (plus_text f) z) + length digits))) as -> by lia.
  rewrite !copies_one. f_equal. lia.
Qed.
Print Assumptions C117_zero_padding_partial.
(** With digit groups they go before the sign: of any negative number that is not too long. *)
Theorem C117_zero_padding_refuted E t z w out :
  (grouping E = [] -> sep E = []) -> (length (sep E) <= 1)%nat -> 1 <= bits t <= 64 -> in_range t z = true -> z < 0 -> 42 <= w < 2 ^ 31 ->
  exists text, write_value E out (VInt t z) (specs_of (Field [] None None false true (Number w) NoCount true None) w (-1) RNone RNone)
    = Ok (out ++ 48 :: text) /\ exists a b, text = a ++ 45 :: b.
Proof.
  intros HE Hsep Ht Hz Hneg Hw. set (f := Field _ _ _ _ _ _ _ _ _).
  destruct (int_shows_ok E t z f w RNone RNone HE Hsep Ht Hz ltac:(lia) ltac:(done)) as (text & Htext & Hout).
  cbn [f int_shows f_type number_shows f_local] in Htext. unfold number_shows in Htext. cbn [f f_local] in Htext.
  destruct Htext as (digits & body & Hd & Hg & Htext). cbv zeta in Htext.
  unfold sign_text in Htext. rewrite decide_True in Htext by done.
  assert (Hlen : (length body <= 2 * length digits)%nat).
  { clear -Hg Hsep. cbn [l_sep locale_of] in Hg. induction Hg as [d|d ds t Hne He Hg IH|d ds t Hne He Hg IH]; cbn in *.
    - lia.
    - rewrite app_length. lia.
    - lia. }
  assert (Hdl : (length digits <= 20)%nat).
  { destruct (in_range_uwidth t z Ht Hz) as [Hr _]. destruct Hd as (ds & -> & Hds). rewrite fmap_length.
    pose proof (digits_of_ndigits 10 (Z.abs z) ds ltac:(lia) Hds) as (_ & _ & [?|Hp]); [lia|].
    destruct (decide (length ds <= 20)%nat); [done|].
    assert (10 ^ 20 <= 10 ^ (Z.of_nat (length ds) - 1)) by (apply Z.pow_le_mono_r; lia).
    destruct (uwidth_cases t) as [Hu|Hu]; rewrite Hu in Hr; lia. }
  change (place PlRight f) with PlRight in Htext. change (fill_text f) with [48] in Htext.
  unfold in_field, padded in Htext. rewrite copies_one in Htext. cbn [app length] in Htext.
  set (k := Z.max 0 (w - Z.of_nat (S (length body)))) in *.
  replace (Z.to_nat k) with (S (Z.to_nat (k - 1))) in Htext by lia. cbn [replicate app] in Htext.
  eexists. split; [cbn [write_value]; rewrite Hout, Htext; reflexivity|]. eauto.
Qed.
Print Assumptions C117_zero_padding_refuted.
Example C117_minus_five :
  let E := Env (fun _ _ => true) [3] [44] 46 in
  let f l := Field [] None None false true (Number 9) NoCount l None in
  write_value E [] (VInt int32 (-5000)) (specs_of (f false) 9 (-1) RNone RNone) = Ok (lit "-00005000")
  /\ write_value E [] (VInt int32 (-5000)) (specs_of (f true) 9 (-1) RNone RNone) = Ok (lit "000-5,000").
Proof. vm_compute. auto. Qed.

(** ** C118: the base asked for is the base used *)

(** C114 has it for fields without L. With L the base is ignored, as is the alternate form. *)
Theorem C118_local_base_refuted E t z fill al sg alternate alternate' zero wd pc ty ty' w p wr pr out :
  write_value E out (VInt t z) (specs_of (Field fill al sg alternate zero wd pc true ty) w p wr pr)
  = write_value E out (VInt t z) (specs_of (Field fill al sg alternate' zero wd pc true ty') w p wr pr).
Proof. cbn [write_value]. unfold write_int_specs. by destruct (make_write_int_arg t z _). Qed.
Print Assumptions C118_local_base_refuted.
Theorem C118_base_partial E t z f w wr pr b out : 1 <= bits t <= 64 -> in_range t z = true -> 0 <= w < 2 ^ 31 ->
  f_local f = false -> f_zero f = false -> f_type f = Some (InBase b) ->
  exists digits, numeral (radix b) (big b) (Z.abs z) digits /\
    let t' := sign_text (plus_text f) z ++ (if f_alternate f then base_prefix b z else []) ++ digits in
    write_value E out (VInt t z) (specs_of f w (-1) wr pr)
    = Ok (out ++ in_field (place PlRight f) (fill_text f) w (Z.of_nat (length t')) t').
Proof.
  intros Ht Hz Hw Hl H0 Hty. destruct (in_range_uwidth t z Ht Hz) as [Hr _]. pose proof (uwidth_cases t) as Hcase.
  destruct (number_shows_ok E z f w wr pr (uwidth t) b) as (text & Htext & Hout); [done|lia|done|done|by apply base_of_pres; right|].
  unfold number_shows in Htext. rewrite Hl in Htext. unfold zero_padded in Htext. rewrite H0 in Htext. cbn [andb] in Htext.
  destruct Htext as (t' & (digits & Hd & ->) & ->). exists digits. split; [done|]. cbv zeta.
  cbn [write_value]. unfold write_int_specs. cbn [sgn specs_of]. rewrite make_write_int_arg_ok by done. cbn [localized specs_of].
  rewrite Hl, Hout. done.
Qed.
Print Assumptions C118_base_partial.
Example C118_hex :
  let E := Env (fun _ _ => true) [3] [44] 46 in
  let f l := Field [] None None true false NoCount NoCount l (Some (InBase (Hex false))) in
  write_value E [] (VInt int32 65535) (specs_of (f false) 0 (-1) RNone RNone) = Ok (lit "0xffff")
  /\ write_value E [] (VInt int32 65535) (specs_of (f true) 0 (-1) RNone RNone) = Ok (lit "65,535").
Proof. vm_compute. auto. Qed.
