(** The text of a value in a field. *)
From Verif Require Import Base.Cpp Model.Numeric Model.FmtInt Model.Utf8 Model.Escape Model.Format.
From Verif Require Import Spec.FormatSpec Spec.Utf8Spec Spec.EscapeSpec Spec.FieldSpec.
From Verif Require Import Proofs.FmtIntProofs Proofs.Utf8Decode Proofs.Utf8Proofs Proofs.EscapeProofs Proofs.FormatWrite Proofs.GroupingProofs.
Set Default Proof Using "Type".
Local Open Scope Z_scope.
Ltac Zify.zify_post_hook ::= idtac.

(** The specs of a field. *)
Definition al_of (f : field) : align :=
  match f_align f with
  | Some PlLeft => ALeft | Some PlRight => ARight | Some PlCenter => ACenter
  | None => if f_zero f then ANumeric else ANone
  end.
Definition sgn_of (f : field) : sign :=
  match f_sign f with None => SNone | Some Plus => SPlus | Some Minus => SMinus | Some Space => SSpace end.
Definition pres_of (t : option type_option) : pres :=
  match t with
  | None => PNone
  | Some (InBase Dec) => PDec
  | Some (InBase Oct) => POct
  | Some (InBase (Hex u)) => if u then PHexUpper else PHexLower
  | Some (InBase (Bin u)) => if u then PBinUpper else PBinLower
  | Some AsChar => PChr
  | Some AsString => PString
  | Some AsDebug => PDebug
  | Some (AsFloat StFixed u) => PFixed u
  | Some (AsFloat StScientific u) => PExp u
  | Some (AsFloat StGeneral u) => PGeneral u
  | Some (AsFloat StHex u) => PHexFloat u
  | Some AsPointer => PPointer
  end.
Definition specs_of (f : field) (w p : Z) (wr pr : ref) : specs :=
  Specs w p (pres_of (f_type f)) (al_of f) (sgn_of f) (f_alternate f) (f_local f) (fill_text f) wr pr.
Definition locale_of (E : env) : locale := Locale (sep E) (grouping E).

Lemma place_of right f : placement_of right (al_of f) = place (if right then PlRight else PlLeft) f.
Proof. unfold placement_of, al_of, place. destruct (f_align f) as [[]|], (f_zero f), right; done. Qed.
Lemma plus_of_eq f : plus_of (sgn_of f) = plus_text f.
Proof. unfold plus_of, sgn_of, plus_text. by destruct (f_sign f) as [[]|]. Qed.
Lemma numeric_of f : al_of f = ANumeric <-> zero_padded f = true.
Proof. unfold al_of, zero_padded. destruct (f_align f) as [[]|], (f_zero f); done. Qed.
Lemma base_of_pres t b : base_of (pres_of t) = Some b <-> (t = None /\ b = Dec \/ t = Some (InBase b)).
Proof.
  destruct t as [[[]| | | |[]|]|]; cbn; repeat match goal with u : bool |- _ => destruct u; cbn end;
    (split; [intros [= <-]; auto|intros [[? ->]|[= <-]]; done] || (split; [done|intros [[? _]|?]; done])).
Qed.

(** ** Integers *)

Lemma write_int_grouped_ok E z f w p wr pr :
  env_ok E -> (length (sep E) <= 1)%nat -> Z.abs z < 2 ^ 64 -> 0 <= w < 2 ^ 31 -> f_local f = true ->
  exists text, (forall b, number_shows (locale_of E) f w b z text) /\
    forall out, write_int_grouped E out (Z.abs z) (sgn_prefix (sgn_of f) (bool_decide (z < 0))) (specs_of f w p wr pr) = Ok (out ++ text).
Proof.
  intros HE Hsep Hz Hw Hl. unfold write_int_grouped.
  destruct (count_digits_ok 64 (Z.abs z)) as (nd & Hnd & Hc); [by right|lia|]. assert (Hnd1 : 1 <= nd) by apply Hc.
  assert (Hnd20 : nd <= 20).
  { destruct (decide (nd <= 20)); [done|]. destruct Hc as (_ & _ & [?|Hc]); [lia|].
    assert (10 ^ 20 <= 10 ^ (nd - 1)) by (apply Z.pow_le_mono_r; lia). lia. }
  pose proof (format_decimal_ok (replicate (Z.to_nat nd) None) (replicate (40 - Z.to_nat nd) None) (Z.abs z) ltac:(lia)) as Hfd.
  rewrite replicate_length, Z2Nat.id in Hfd by lia. specialize (Hfd Hc). rewrite <- replicate_add in Hfd.
  replace (Z.to_nat nd + (40 - Z.to_nat nd))%nat with 40%nat in Hfd by lia.
  destruct Hfd as ([[m b] e] & Hm & _ & _ & ds & Hds & Hlen & Hm').
  set (digits := digit_char false <$> ds).
  assert (Hdl : length digits = Z.to_nat nd) by (unfold digits; by rewrite fmap_length).
  assert (Hread : read_all (take (Z.to_nat nd) m) = Ok digits).
  { rewrite Hm'. rewrite take_app_alt by (by rewrite !fmap_length). apply read_all_some. }
  assert (Hcs : count_separators E nd = Ok (Z.of_nat (length (first_ends E (Z.to_nat nd))))).
  { rewrite <- (Z2Nat.id nd) at 1 by lia. apply count_separators_ok; [done|]. unfold max_int. lia. }
  set (body := interleave (sep E) (first_ends E (length digits)) digits).
  assert (Hne : digits <> []) by (intros H%(f_equal length); rewrite Hdl in H; cbn in H; lia).
  assert (Hgr : grouped (sep E) (grouping E) digits body).
  { unfold body. destruct (sep E) as [|c cs] eqn:Hs.
    - rewrite interleave_no_sep. by apply grouped_empty_sep.
    - rewrite <- Hs. apply first_ends_grouped; [done|by rewrite Hs]. }
  assert (Hblen : Z.of_nat (length body) = nd + Z.of_nat (length (first_ends E (Z.to_nat nd)))).
  { unfold body. rewrite <- Hdl. unfold first_ends. destruct (sep E) as [|c cs] eqn:Hs.
    - rewrite interleave_no_sep. cbn. lia.
    - pose proof (ends_sorted (length digits) (grouping E) 0 (Z.of_nat (length digits))) as [Hsort Hr].
      rewrite interleave_length; [|clear -Hsort|done].
      + cbn in Hsep. destruct cs; [|cbn in Hsep; lia]. cbn [length]. lia.
      + induction Hsort as [|x l Hs IH Hf]; constructor; [|done]. intros Hin. rewrite Forall_forall in Hf. apply Hf in Hin. lia. }
  set (sg := sign_text (plus_text f) z).
  assert (Hsg : (if bool_decide (z < 0) then [45] else plus_of (sgn_of f)) = sg).
  { unfold sg, sign_text. rewrite plus_of_eq. case_bool_decide; [by rewrite decide_True|by rewrite decide_False]. }
  assert (Hpre : let prefix := sgn_prefix (sgn_of f) (bool_decide (z < 0)) in
    (forall it, (if decide (prefix <> 0) then it ++ [prefix mod 256] else it) = it ++ sg) /\
    (if decide (prefix <> 0) then 1 else 0) = Z.of_nat (length sg)).
  { cbv zeta. rewrite <- Hsg. destruct (sgn_of f), (bool_decide (z < 0)); (split; [intros it|]);
      first [reflexivity|symmetry; exact (app_nil_r it)]. }
  cbv zeta in Hpre. destruct Hpre as [Hpre1 Hpre2].
  exists (in_field (place PlRight f) (fill_text f) w (Z.of_nat (length (sg ++ body))) (sg ++ body)). split.
  - intros b0. unfold number_shows. rewrite Hl. exists digits, body. split; [|done]. by apply numeral_digits.
  - intros out. rewrite Hnd. cbn [bind]. rewrite Hm. cbn [bind]. rewrite Hread. cbn [bind]. rewrite Hcs. cbn [bind].
    rewrite Hpre2. rewrite (write_padded_ok _ _ _ _ _ _ (sg ++ body)).
    + cbn [al fill width specs_of]. rewrite place_of. do 3 f_equal. rewrite app_length. lia.
    + done.
    + lia.
    + intros it. rewrite Hpre1. rewrite group_apply_ok; [|done|rewrite Hdl; unfold max_int; lia]. by rewrite <- app_assoc.
Qed.

Lemma number_shows_ok E z f w wr pr bits b :
  (bits = 32 \/ bits = 64) -> Z.abs z < 2 ^ bits -> 0 <= w < 2 ^ 31 -> f_local f = false -> base_of (pres_of (f_type f)) = Some b ->
  exists text, number_shows (locale_of E) f w b z text /\
    forall out, write_int_arg E out bits (Z.abs z) (sgn_prefix (sgn_of f) (bool_decide (z < 0))) (specs_of f w (-1) wr pr) = Ok (out ++ text).
Proof.
  intros Hbits Hz Hw Hl Hb.
  destruct (write_int_arg_ok E bits z (specs_of f w (-1) wr pr) b) as (text & Htext & Hout); [done|done|done|done|done|].
  exists text. split; [|done]. unfold number_shows. rewrite Hl.
  destruct Htext as (zeros & t & Ht & Htext). cbn [sgn alt al fill width specs_of] in *. rewrite plus_of_eq in Ht.
  destruct (zero_padded f) eqn:Hzp.
  - rewrite decide_True in Htext by (by apply numeric_of). destruct Htext as [-> Hzeros]. exists zeros. done.
  - rewrite decide_False in Htext by (intros H%numeric_of; congruence). destruct Htext as [-> ->]. exists t. split; [done|].
    rewrite Z.sub_0_r, place_of. done.
Qed.

Lemma char_shows_ok f w p wr pr c : 0 <= w < 2 ^ 31 -> pres_of (f_type f) <> PDebug ->
  exists text, char_shows f w c text /\ forall out, write_char out c (specs_of f w p wr pr) = Ok (out ++ text).
Proof.
  intros Hw Hp. eexists. split; [done|]. intros out. unfold write_char.
  rewrite (write_padded_ok _ _ _ _ _ _ [c]); [|done|lia|].
  - cbn [al fill width specs_of]. by rewrite place_of.
  - intros it. cbn [typ specs_of]. by rewrite decide_False.
Qed.

Lemma int_shows_ok E t z f w wr pr :
  env_ok E -> (length (sep E) <= 1)%nat -> int_type t -> in_range t z = true -> 0 <= w < 2 ^ 31 ->
  (f_type f <> Some AsString /\ f_type f <> Some AsDebug /\ f_type f <> Some AsPointer /\ forall st u, f_type f <> Some (AsFloat st u)) ->
  exists text, int_shows (locale_of E) f w z text /\
    forall out, write_int_specs E out t z (specs_of f w (-1) wr pr) = Ok (out ++ text).
Proof.
  intros HE Hsep Ht Hz Hw (Hns & Hnd & Hnp & Hnf). destruct (in_range_uwidth t z Ht Hz) as [Hr _]. pose proof (uwidth_cases t) as Hcase.
  assert (Habs : Z.abs z < 2 ^ uwidth t) by lia.
  assert (Habs64 : Z.abs z < 2 ^ 64) by (destruct Hcase as [->| ->] in Habs; lia).
  unfold write_int_specs. cbn [sgn specs_of]. setoid_rewrite (make_write_int_arg_ok t z (sgn_of f) Ht Hz). cbn [localized specs_of].
  unfold int_shows. destruct (f_local f) eqn:Hl.
  - destruct (write_int_grouped_ok E z f w (-1) wr pr HE Hsep Habs64 Hw Hl) as (text & Htext & Hout).
    exists text. split; [|done]. destruct (f_type f) as [[b| | | |st u|]|]; try done; try apply Htext. by destruct (Hnf st u).
  - destruct (f_type f) as [[b| | | |st u|]|] eqn:Hty; try done; try (by destruct (Hnf st u)).
    + apply (number_shows_ok E z f w wr pr (uwidth t) b); [done|done|done|done|]. apply base_of_pres. rewrite Hty. by right.
    + destruct (char_shows_ok f w (-1) wr pr (Z.abs z mod 256)) as (text & Htext & Hout); [done|by rewrite Hty|].
      exists text. split; [done|]. intros out. unfold write_int_arg. cbn [typ specs_of]. rewrite Hty. cbn [pres_of].
      replace (specs_of f w (-1) wr pr) with (specs_of f w (-1) wr pr) in Hout by done. apply Hout.
    + apply (number_shows_ok E z f w wr pr (uwidth t) Dec); [done|done|done|done|]. apply base_of_pres. rewrite Hty. by left.
Qed.

Lemma bool_shows_ok E b f w wr pr :
  env_ok E -> (length (sep E) <= 1)%nat -> 0 <= w < 2 ^ 31 -> f_type f <> Some AsDebug -> f_type f <> Some AsPointer -> (forall st u, f_type f <> Some (AsFloat st u)) ->
  exists text, bool_shows (locale_of E) f w b text /\
    forall out, write_value E out (VBool b) (specs_of f w (-1) wr pr) = Ok (out ++ text).
Proof.
  intros HE Hsep Hw Hnd Hnp Hnf. unfold bool_shows, write_value. cbn [typ specs_of].
  assert (Hint : f_type f <> None -> f_type f <> Some AsString ->
    exists text, int_shows (locale_of E) f w (if b then 1 else 0) text /\
      forall out, (if decide (pres_of (f_type f) <> PNone /\ pres_of (f_type f) <> PString)
        then write_int_specs E out int32 (if b then 1 else 0) (specs_of f w (-1) wr pr)
        else write_bytes out (bool_name b) (specs_of f w (-1) wr pr)) = Ok (out ++ text)).
  { intros H1 H2. destruct (int_shows_ok E int32 (if b then 1 else 0) f w wr pr) as (text & Htext & Hout);
      [done|done|split; cbn; lia|by destruct b|done|done|].
    exists text. split; [done|]. intros out. rewrite decide_True; [apply Hout|].
    destruct (f_type f) as [[[| |[]|[]]| | | |[]|]|]; done. }
  assert (Hname : f_type f = None \/ f_type f = Some AsString ->
    forall out, (if decide (pres_of (f_type f) <> PNone /\ pres_of (f_type f) <> PString)
        then write_int_specs E out int32 (if b then 1 else 0) (specs_of f w (-1) wr pr)
        else write_bytes out (bool_name b) (specs_of f w (-1) wr pr))
      = Ok (out ++ in_field (place PlLeft f) (fill_text f) w (Z.of_nat (length (bool_name b))) (bool_name b))).
  { intros H out. rewrite decide_False by (destruct H as [-> | ->]; intros [? ?]; done). unfold write_bytes.
    rewrite (write_padded_ok _ _ _ _ _ _ (bool_name b)); [|done|lia|done]. cbn [al fill width specs_of]. by rewrite place_of. }
  destruct (f_type f) as [[bs| | | |st u|]|] eqn:Hty; try (by destruct (Hnf st u)).
  - by apply Hint.
  - by apply Hint.
  - eexists. split; [reflexivity|]. apply Hname. by right.
  - done.
  - done.
  - eexists. split; [reflexivity|]. apply Hname. by left.
Qed.

(** ** Chars *)

Definition debug_char (c : Z) : list Z := match write_escaped_char [] c with Ok t => t | _ => [] end.
Lemma debug_char_ok out c : is_byte c -> write_escaped_char out c = Ok (out ++ debug_char c).
Proof.
  intros Hc. unfold debug_char. destruct (write_escaped_char_ok out c Hc) as (x & -> & t & -> & Ht).
  destruct (write_escaped_char_ok [] c Hc) as (y & -> & t' & -> & Ht'). by rewrite Ht, Ht'.
Qed.

Lemma char_value_shows_ok E c f w wr pr :
  env_ok E -> (length (sep E) <= 1)%nat -> 0 <= w < 2 ^ 31 -> is_byte c -> admits KChar f ->
  exists text, char_value_shows (locale_of E) (debug_char c) f w c text /\
    forall out, write_value E out (VChar c) (specs_of f w (-1) wr pr) = Ok (out ++ text).
Proof.
  intros HE Hsep Hw Hc (Hty & Hsg & _ & _ & _ & _ & Hch). unfold char_value_shows, write_value, check_char_specs.
  cbn [typ al sgn alt specs_of]. specialize (Hch eq_refl).
  assert (Hs0 : f_sign f = None) by (destruct (f_sign f); [by destruct (Hsg ltac:(done))|done]).
  assert (Hchar : as_char (f_type f) -> ~ (al_of f = ANumeric \/ sgn_of f <> SNone \/ f_alternate f = true)).
  { intros Ha. destruct (Hch Ha) as [Halt Hzp]. rewrite numeric_of. unfold sgn_of. rewrite Hs0. intros [?|[?|?]]; congruence. }
  assert (Hint : f_type f <> Some AsString -> f_type f <> Some AsDebug -> f_type f <> Some AsPointer -> (forall st u, f_type f <> Some (AsFloat st u)) -> exists text, int_shows (locale_of E) f w c text /\
    forall out, write_int_specs E out (ITy 8 false) c (specs_of f w (-1) wr pr) = Ok (out ++ text)).
  { intros H1 H2 H3 H4. apply int_shows_ok; [done|done|split; cbn; lia| |done|done]. unfold is_byte in Hc. unfold in_range, lo, hi. cbn.
    apply andb_true_intro. split; [apply Z.leb_le|apply Z.leb_le]; lia. }
  destruct (f_type f) as [[b| | | |st u|]|] eqn:Ht; try done.
  - destruct b as [| |[]|[]]; cbn [pres_of bind]; by apply Hint.
  - cbn [pres_of]. rewrite decide_False by (by apply Hchar). cbn [bind]. apply char_shows_ok; [done|by rewrite Ht].
  - cbn [pres_of]. rewrite decide_False by (by apply Hchar). cbn [bind]. eexists. split; [reflexivity|].
    intros out. unfold write_char. rewrite (write_padded_ok _ _ _ _ _ _ (debug_char c)); [|done|lia|].
    + cbn [al fill width specs_of]. by rewrite place_of.
    + intros it. cbn [typ specs_of]. rewrite Ht. cbn [pres_of]. rewrite decide_True by done. by apply debug_char_ok.
  - cbn [pres_of]. rewrite decide_False by (by apply Hchar). cbn [bind]. apply char_shows_ok; [done|by rewrite Ht].
Qed.

(** ** Strings *)

Definition precision_of (p : Z) : option Z := if decide (0 <= p) then Some p else None.

Lemma take_pieces s ps n : pieces s ps -> take (length (concat (map snd (take n ps)))) s = concat (map snd (take n ps)).
Proof.
  intros H. rewrite <- (pieces_concat _ _ H) at 1. rewrite <- (take_drop n ps) at 2. rewrite map_app, concat_app. by rewrite take_app.
Qed.
Lemma pieces_length s ps : pieces s ps -> (length ps <= length s)%nat.
Proof.
  induction 1 as [|cp s ps Hsc H IH|b s ps Hno H IH]; cbn; [lia| |lia]. rewrite app_length. pose proof (encode_length cp). lia.
Qed.

Lemma string_shows_ok E s ps f w p wr pr :
  0 <= w < 2 ^ 31 -> -1 <= p -> Forall is_byte s -> pieces s ps ->
  (f_type f = None \/ f_type f = Some AsString \/ f_type f = Some AsDebug) ->
  exists text, string_shows columns (quoted printable ps) f w (precision_of p) s text /\
    forall out, write_value E out (VStr s) (specs_of f w p wr pr) = Ok (out ++ text).
Proof.
  intros Hw Hp Hby Hps Hty. unfold write_value, write_string. cbn [width precision typ specs_of].
  (* The chars that count. *)
  set (t := concat (map snd (match precision_of p with Some n => take (Z.to_nat n) ps | None => ps end))).
  assert (Hsize : exists size, (if decide (0 <= p /\ p < Z.of_nat (length s)) then code_point_index s p else Ok (length s)) = Ok size
    /\ take size s = t).
  { unfold t, precision_of. destruct (decide (0 <= p)) as [H0|H0].
    - destruct (decide (0 <= p /\ p < Z.of_nat (length s))) as [H1|H1].
      + rewrite (code_point_index_ok s ps) by done. eexists. split; [done|]. by apply take_pieces.
      + exists (length s). split; [done|]. rewrite take_ge by done. pose proof (pieces_length _ _ Hps).
        rewrite (take_ge ps) by lia. symmetry. by apply pieces_concat.
    - rewrite decide_False by tauto. exists (length s). split; [done|]. rewrite take_ge by done. symmetry. by apply pieces_concat. }
  destruct Hsize as (size & Hsize & Htake). setoid_rewrite Hsize. cbn [bind].
  assert (Hdec : f_type f = Some AsDebug \/ f_type f <> Some AsDebug) by (destruct Hty as [-> |[-> | ->]]; [by right|by right|by left]).
  destruct Hdec as [Hd|Hd].
  - unfold string_shows. rewrite Hd. eexists. split; [reflexivity|]. intros out. cbn [pres_of].
    rewrite !(decide_True (P := PDebug = PDebug)) by done.
    assert (Hlen : (if decide (w <> 0) then let* e := write_escaped_string [] s in Ok (Z.of_nat (length e)) else Ok 0)
      = Ok (if decide (w <> 0) then Z.of_nat (length (quoted printable ps)) else 0)).
    { destruct (decide (w <> 0)); [|done]. by rewrite (write_escaped_string_ok [] s ps) by done. }
    rewrite Hlen. cbn [bind].
    rewrite (write_padded_ok _ _ _ _ _ _ (quoted printable ps)); [|done|destruct (decide (w <> 0)); lia|].
    + cbn [al fill width specs_of]. rewrite place_of. unfold in_field. do 3 f_equal. destruct (decide (w <> 0)); [done|]. lia.
    + intros it. by apply write_escaped_string_ok.
  - assert (Hnd : pres_of (f_type f) <> PDebug) by (destruct Hty as [E1 | [E1 | E1]]; rewrite E1 in Hd |- *; done).
    destruct (compute_width_columns t) as (c & Hc & Hcols).
    { rewrite <- Htake. by apply Forall_take. }
    exists (in_field (place PlLeft f) (fill_text f) w c t). split.
    + assert (Hex : exists ps0 c0, pieces s ps0 /\
        (let t0 := concat (map snd (match precision_of p with Some n => take (Z.to_nat n) ps0 | None => ps0 end)) in
         columns t0 c0 /\ in_field (place PlLeft f) (fill_text f) w c t = in_field (place PlLeft f) (fill_text f) w c0 t0)).
      { exists ps, c. split; [done|]. split; [exact Hcols|done]. }
      unfold string_shows. destruct Hty as [E1|[E1|E1]]; [rewrite E1; exact Hex|rewrite E1; exact Hex|done].
    + intros out. rewrite (decide_False (P := pres_of (f_type f) = PDebug)) by done. rewrite Htake.
      assert (Hlen : (if decide (w <> 0) then compute_width t else Ok 0) = Ok (if decide (w <> 0) then c else 0)) by (by destruct (decide (w <> 0))).
      rewrite Hlen. cbn [bind].
      assert (Hc0 : 0 <= c).
      { destruct Hcols as (ps' & _ & ->). rewrite <- sum_widths_columns. pose proof (sum_widths_range ps'). lia. }
      rewrite (write_padded_ok _ _ _ _ _ _ t); [|done|destruct (decide (w <> 0)); lia|].
      * cbn [al fill width specs_of]. rewrite place_of. unfold in_field. do 3 f_equal. destruct (decide (w <> 0)); [done|]. lia.
      * intros it. by rewrite decide_False.
Qed.

(** ** Pointers and C strings *)

Lemma pointer_shows_ok E a f w p wr pr : 0 <= w < 2 ^ 31 -> 0 <= a < 2 ^ 64 ->
  exists text, pointer_shows f w a text /\ forall out, write_ptr E out a (specs_of f w p wr pr) = Ok (out ++ text).
Proof.
  intros Hw Ha. destruct (count_digits_bits_ok 64 4 a) as (nd & Hnd & Hc); [by right|lia|lia|].
  assert (Hnd1 : 1 <= nd) by apply Hc.
  destruct (format_uint_it_ok true 64 4 a (Z.to_nat nd) false) as (s & Hs & ds & Hds & Hlen & ->);
    [by right|lia|lia|by rewrite Z2Nat.id by lia|].
  assert (Hnum : numeral 16 false a (digit_char false <$> ds)) by (by apply (numeral_digits 16)).
  assert (Hlz : Z.of_nat (length (digit_char false <$> ds)) = nd) by (rewrite fmap_length; lia).
  eexists. split; [exists (digit_char false <$> ds); split; [done|reflexivity]|]. intros out. unfold write_ptr. rewrite Hnd. cbn [bind].
  rewrite (write_padded_ok _ _ _ _ _ _ ([48; 120] ++ (digit_char false <$> ds))); [|cbn [width specs_of]; lia|lia|].
  - cbn [al fill width specs_of]. rewrite place_of. rewrite app_length. cbn [length]. rewrite Nat2Z.inj_add, Hlz, (Z.add_comm nd). done.
  - intros it. unfold write_uint_digits.
    destruct (format_uint_it_ok (room E (it ++ [48; 120]) (Z.to_nat nd)) 64 4 a (Z.to_nat nd) false) as (s' & -> & ds' & Hds' & Hlen' & ->);
      [by right|lia|lia|by rewrite Z2Nat.id by lia|].
    cbn [bind]. rewrite <- app_assoc. do 3 f_equal. eapply (numeral_unique 16); [lia|by apply (numeral_digits 16)|done].
Qed.
(** The chars before the first that is 0. *)
Lemma c_string_ok s rest : Forall (fun c => c <> 0) s -> c_string (s ++ 0 :: rest) = Ok s.
Proof. induction 1 as [|c s Hc _ IH]; [done|]. cbn. rewrite decide_False by done. by rewrite IH. Qed.
Lemma c_string_find chars : In 0 chars -> exists s rest, Forall (fun c => c <> 0) s /\ chars = s ++ 0 :: rest.
Proof.
  induction chars as [|c chars IH]; intros H; [done|]. destruct (decide (c = 0)) as [->|Hc]; [by exists [], chars|].
  destruct H as [?|H]; [done|]. destruct (IH H) as (s & rest & Hs & ->). exists (c :: s), rest. split; [by constructor|done].
Qed.

(** ** Without specs *)

Lemma write_default_value_ok E t z : int_type t -> in_range t z = true ->
  exists s, decimal z s /\ forall out, write_value_default E out (VInt t z) = Ok (out ++ s).
Proof.
  intros Ht Hz. destruct (in_range_uwidth t z Ht Hz) as [Hr _]. pose proof (uwidth_cases t) as Hw.
  destruct (write_default_ok false t z Ht Hz) as (s & _ & Hs). exists s. split; [done|]. intros out.
  unfold write_value_default. cbv zeta. rewrite abs_value_eq by done.
  destruct (count_digits_ok (uwidth t) (Z.abs z)) as (c & -> & _); [done|lia|]. cbn [bind].
  destruct (write_default_ok (room E out ((if is_negative t z then 1 else 0) + Z.to_nat c)) t z Ht Hz) as (s' & -> & Hs').
  cbn [bind]. by rewrite (decimal_unique z s s').
Qed.
