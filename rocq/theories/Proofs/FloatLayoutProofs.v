(** Laying out decimals. *)
From Verif Require Import Base.Cpp Model.Numeric Model.FmtInt Model.Format Model.Dragonbox Model.FloatLayout
  Spec.FormatSpec Spec.FloatText Proofs.FmtIntProofs Proofs.FormatWrite.
Set Default Proof Using "Type".
Ltac Zify.zify_post_hook ::= idtac.
Local Open Scope Z_scope.

Lemma digit_text_length ds : length (digit_text ds) = length ds.
Proof. apply fmap_length. Qed.
Lemma digit_text_app a b : digit_text (a ++ b) = digit_text a ++ digit_text b.
Proof. apply fmap_app. Qed.
Lemma digit_text_take n a : digit_text (take n a) = take n (digit_text a).
Proof. apply fmap_take. Qed.
Lemma digit_text_drop n a : digit_text (drop n a) = drop n (digit_text a).
Proof. apply fmap_drop. Qed.

Lemma digits_of_unique n ds ds' : digits_of 10 n ds -> digits_of 10 n ds' -> ds = ds'.
Proof.
  intros H H'. pose proof (numeral_unique 10 false n _ _ ltac:(lia) (numeral_digits 10 false n ds H) (numeral_digits 10 false n ds' H')) as Heq.
  destruct H as (Hf & _), H' as (Hf' & _). clear -Heq Hf Hf'. revert ds' Heq Hf'.
  induction ds as [|d ds IH]; intros [|d' ds'] Heq Hf'; try done.
  apply Forall_cons in Hf as [Hd Hf]. apply Forall_cons in Hf' as [Hd' Hf'].
  cbn in Heq. injection Heq as Hc Heq. rewrite !digit_char_lt10 in Hc by lia. f_equal; [lia|by apply IH].
Qed.

Lemma number_snoc b xs d : number b (xs ++ [d]) = number b xs * b + d.
Proof. rewrite number_app. cbn [length]. change (Z.of_nat 1) with 1. rewrite Z.pow_1_r. done. Qed.

Lemma digits_of_take n ds k : digits_of 10 n ds -> (0 < k <= length ds)%nat ->
  digits_of 10 (number 10 (take k ds)) (take k ds).
Proof.
  intros (Hf & Hn & Hne & Hz) Hk. split_and!.
  - by apply Forall_take.
  - done.
  - intros H. apply (f_equal length) in H. rewrite take_length in H. cbn in H. lia.
  - destruct ds as [|d ds]; [done|]. destruct k; [lia|]. cbn. intros H. specialize (Hz H). injection Hz as -> ->.
    by rewrite take_nil.
Qed.

(** What a significand writes, with the digits [ds]. *)
Definition sig_ok (s : significand) (ds : list Z) : Prop :=
  get_significand_size s = Ok (Z.of_nat (length ds)) /\
  write_digits s (Z.of_nat (length ds)) = Ok (digit_text ds) /\
  (forall i p, p <> 0 -> (0 < i <= length ds)%nat ->
    write_point s (Z.of_nat (length ds)) (Z.of_nat i) p = Ok (digit_text (take i ds) ++ p :: digit_text (drop i ds))) /\
  (length ds = 1%nat -> write_point s 1 1 0 = Ok (digit_text ds)).

Lemma sig_chars ds : sig_ok (SChars (digit_text ds)) ds.
Proof.
  split_and!; cbn.
  - by rewrite digit_text_length.
  - rewrite Nat2Z.id, take_ge by (by rewrite digit_text_length). done.
  - intros i p Hp Hi. rewrite decide_False by done. rewrite Nat2Z.id.
    rewrite (take_ge (drop _ _)) by (rewrite drop_length, digit_text_length; lia).
    by rewrite digit_text_take, digit_text_drop.
  - intros Hl. rewrite take_ge by (rewrite digit_text_length; lia). done.
Qed.

Lemma write_point_mem_ok L n ds i p : digits_of 10 n ds -> (0 < i <= length ds)%nat -> (length ds < L)%nat -> p <> 0 ->
  wp (write_point_mem (replicate L None) n (Z.of_nat (length ds)) (Z.of_nat i) p) (fun '(m, e) =>
    take e m = Some <$> (digit_text (take i ds) ++ p :: digit_text (drop i ds))).
Proof.
  intros Hds Hi HL Hp. unfold write_point_mem. rewrite decide_False by done.
  pose proof Hds as (Hf & Hn & _ & _).
  set (N := length ds) in *. set (F := (N - i)%nat).
  replace (Z.of_nat N - Z.of_nat i) with (Z.of_nat F) by lia.
  replace (Z.to_nat (Z.of_nat N + 1)) with (S N) by lia.
  set (tl := replicate (L - S N) None : mem).
  assert (Hm0 : replicate L None = (replicate (S N) None ++ tl : mem)).
  { unfold tl. rewrite <- replicate_add. f_equal. lia. }
  rewrite Hm0. apply wp_bind.
  apply (wp_for_up (fun k '(m, out, v) =>
    m = (replicate (S N - 2 * k) None ++ (Some <$> digit_text (drop (N - 2 * k) ds)) ++ tl) /\
    out = (S N - 2 * k)%nat /\ v = number 10 (take (N - 2 * k) ds))).
  - rewrite Nat.mul_0_r, !Nat.sub_0_r. unfold N. rewrite drop_all, firstn_all. done.
  - intros k [[m out] v] _ Hk (-> & -> & ->). rewrite Nat.add_0_l in Hk.
    assert (Hk2 : (2 * k + 2 <= F)%nat).
    { assert (Z.of_nat (k + 1) <= Z.of_nat F / 2) by lia.
      pose proof (Z.div_mod (Z.of_nat F) 2 ltac:(lia)). pose proof (Z.mod_pos_bound (Z.of_nat F) 2 ltac:(lia)). lia. }
    assert (Hlen : (N - 2 * k = N - 2 * S k + 2)%nat) by lia.
    assert (Hex : exists a b, drop (N - 2 * S k) (take (N - 2 * k) ds) = [a; b] /\ 0 <= a < 10 /\ 0 <= b < 10).
    { assert (Hl : length (drop (N - 2 * S k) (take (N - 2 * k) ds)) = 2%nat) by (rewrite drop_length, take_length; lia).
      assert (Hff : Forall (fun d => 0 <= d < 10) (drop (N - 2 * S k) (take (N - 2 * k) ds))) by (by apply Forall_drop, Forall_take).
      destruct (drop (N - 2 * S k) (take (N - 2 * k) ds)) as [|a [|b [|]]]; try done.
      apply Forall_cons in Hff as [Ha Hff]. apply Forall_cons in Hff as [Hb _]. eauto. }
    destruct Hex as (a & b & Hab & Ha & Hb).
    assert (Hsplit : take (N - 2 * k) ds = take (N - 2 * S k) ds ++ [a; b]).
    { rewrite <- Hab. rewrite <- (take_drop (N - 2 * S k) (take (N - 2 * k) ds)) at 1. f_equal.
      rewrite take_take. f_equal. lia. }
    assert (Hdrop : drop (N - 2 * S k) ds = [a; b] ++ drop (N - 2 * k) ds).
    { rewrite <- Hab. rewrite <- (take_drop (N - 2 * k) ds) at 1. rewrite drop_app_le; [done|].
      rewrite take_length. lia. }
    rewrite Hsplit, number_app. set (x := number 10 (take (N - 2 * S k) ds)).
    replace (10 ^ Z.of_nat (length [a; b])) with 100 by done. replace (number 10 [a; b]) with (a * 10 + b) by (cbn; lia).
    assert (Hmod : (x * 100 + (a * 10 + b)) mod 100 = a * 10 + b).
    { rewrite Z.add_comm, Z.mod_add by lia. apply Z.mod_small. lia. }
    assert (Hdiv : (x * 100 + (a * 10 + b)) / 100 = x).
    { rewrite Z.add_comm, Z.div_add by lia. rewrite Z.div_small by lia. done. }
    rewrite Hmod, Hdiv, digits2_ok by lia.
    assert (Ha' : (a * 10 + b) / 10 = a) by (rewrite Z.add_comm, Z.div_add, Z.div_small by lia; done).
    assert (Hb' : (a * 10 + b) mod 10 = b) by (rewrite Z.add_comm, Z.mod_add, Z.mod_small by lia; done).
    rewrite Ha', Hb'. cbn [bind].
    set (pre := replicate (S N - 2 * k) None : mem).
    assert (Hpre : length pre = (S N - 2 * k)%nat) by apply replicate_length.
    pose proof (put_before_ok pre ((Some <$> digit_text (drop (N - 2 * k) ds)) ++ tl) [digit_char false a; digit_char false b]) as Hput.
    rewrite Hpre in Hput. rewrite Hput by (cbn; lia). cbn [bind length]. apply wp_ok. split_and!.
    + unfold pre. rewrite take_replicate, Nat.min_l by lia. f_equal; [f_equal; lia|]. rewrite Hdrop, digit_text_app. done.
    + lia.
    + done.
  - intros [[m out] v] (-> & -> & ->). rewrite Nat.add_0_l.
    set (h := Z.to_nat (Z.of_nat F / 2)).
    assert (Hh : Z.of_nat F = 2 * Z.of_nat h + Z.of_nat F mod 2).
    { unfold h. rewrite Z2Nat.id by (apply Z.div_pos; lia). apply Z.div_mod. lia. }
    pose proof (Z.mod_pos_bound (Z.of_nat F) 2 ltac:(lia)) as Hm2.
    apply wp_bind.
    assert (Hstep : wp (if decide (Z.of_nat F mod 2 <> 0) then
        let* (m, out) := put_before (replicate (S N - 2 * h) None ++ (Some <$> digit_text (drop (N - 2 * h) ds)) ++ tl)
          (S N - 2 * h) [48 + number 10 (take (N - 2 * h) ds) mod 10] in
        Ok (m, out, number 10 (take (N - 2 * h) ds) / 10)
      else Ok (replicate (S N - 2 * h) None ++ (Some <$> digit_text (drop (N - 2 * h) ds)) ++ tl, (S N - 2 * h)%nat,
               number 10 (take (N - 2 * h) ds))) (fun '(m, out, v) =>
      m = (replicate (S i) None ++ (Some <$> digit_text (drop i ds)) ++ tl) /\ out = S i /\ v = number 10 (take i ds))).
    { destruct (decide (Z.of_nat F mod 2 <> 0)) as [Hodd|Hev].
      - assert (HF : (N - 2 * h = S i)%nat) by lia. rewrite HF.
        assert (Hd : exists d, ds !! i = Some d /\ 0 <= d < 10).
        { destruct (lookup_lt_is_Some_2 ds i ltac:(fold N; lia)) as [d Hd]. exists d. split; [done|].
          exact (Forall_lookup_1 _ _ _ _ Hf Hd). }
        destruct Hd as (d & Hd & Hdr).
        rewrite (take_S_r ds i d Hd), number_snoc.
        assert (Hmod : (number 10 (take i ds) * 10 + d) mod 10 = d) by (rewrite Z.add_comm, Z.mod_add, Z.mod_small by lia; done).
        assert (Hdiv : (number 10 (take i ds) * 10 + d) / 10 = number 10 (take i ds)) by (rewrite Z.add_comm, Z.div_add, Z.div_small by lia; done).
        rewrite Hmod, Hdiv. replace (S N - 2 * h)%nat with (S (S i)) by lia.
        set (pre := replicate (S (S i)) None : mem).
        assert (Hpre : length pre = S (S i)) by apply replicate_length.
        pose proof (put_before_ok pre ((Some <$> digit_text (drop (S i) ds)) ++ tl) [48 + d]) as Hput.
        rewrite Hpre in Hput. rewrite Hput by (cbn; lia). cbn [bind length]. apply wp_ok. split_and!.
        + unfold pre. rewrite take_replicate, Nat.min_l by lia. f_equal.
          rewrite (drop_S ds d i Hd). cbn. by rewrite digit_char_lt10 by lia.
        + lia.
        + done.
      - replace (S N - 2 * h)%nat with (S i) by lia. replace (N - 2 * h)%nat with i by lia. apply wp_ok. done. }
    eapply wp_mono; [exact Hstep|]. intros [[m out] v] (-> & -> & ->).
    set (pre := replicate (S i) None : mem).
    assert (Hpre : length pre = S i) by apply replicate_length.
    pose proof (put_before_ok pre ((Some <$> digit_text (drop i ds)) ++ tl) [p]) as Hput.
    rewrite Hpre in Hput. rewrite Hput by (cbn; lia). cbn [bind length].
    replace (S i - 1)%nat with i by lia. rewrite decide_False by lia.
    rewrite Nat2Z.id, Nat.sub_diag. cbn [drop take].
    replace (take i pre) with (replicate i None : mem) by (unfold pre; rewrite take_replicate; f_equal; lia).
    pose proof (digits_of_take n ds i Hds ltac:(fold N; lia)) as Hti.
    pose proof (format_decimal_ok (replicate i None) ((Some <$> [p]) ++ (Some <$> digit_text (drop i ds)) ++ tl) (number 10 (take i ds))) as Hfd.
    rewrite replicate_length in Hfd.
    assert (Hnd : ndigits 10 (number 10 (take i ds)) (Z.of_nat i)).
    { apply digits_of_ndigits in Hti; [|lia]. rewrite take_length, Nat.min_l in Hti by (fold N; lia). done. }
    assert (Hnn : 0 <= number 10 (take i ds)) by (apply number_bound; [lia|by apply Forall_take]).
    destruct (Hfd Hnn Hnd) as ([[m' b'] e'] & Hrun & _ & _ & ds' & Hds' & Hl' & ->).
    rewrite drop_0, take_0. rewrite Hrun. cbn [bind].
    apply wp_ok. rewrite (digits_of_unique _ _ _ Hds' Hti).
    rewrite app_nil_l, app_assoc, app_assoc. rewrite take_app_alt.
    + rewrite <- !fmap_app. f_equal. by rewrite <- app_assoc.
    + rewrite !app_length, !fmap_length. cbn [length]. rewrite digit_text_length, take_length, drop_length. fold N. lia.
Qed.

Lemma sig_number w n ds : (w = 32 \/ w = 64) -> 0 <= n < 2 ^ w -> digits_of 10 n ds -> sig_ok (SNumber w n) ds.
Proof.
  intros Hw Hn Hds. pose proof (digits_of_ndigits 10 n ds ltac:(lia) Hds) as Hnd.
  assert (Hle : (length ds <= digits10 w + 1)%nat).
  { destruct Hnd as (_ & _ & [|Hnd]); [lia|].
    assert (~ (Z.of_nat (digits10 w + 1) <= Z.of_nat (length ds) - 1)); [|lia]. intros Hc.
    assert (10 ^ Z.of_nat (digits10 w + 1) <= 10 ^ (Z.of_nat (length ds) - 1)) as Hp by (apply Z.pow_le_mono_r; lia).
    destruct Hw as [-> | ->]; [change (10 ^ Z.of_nat (digits10 32 + 1)) with (10 ^ 10) in Hp
                             |change (10 ^ Z.of_nat (digits10 64 + 1)) with (10 ^ 20) in Hp]; lia. }
  split_and!; cbn [get_significand_size write_digits write_point].
  - destruct (count_digits_ok w n Hw Hn) as (c & Hc & Hcd). rewrite Hc. f_equal.
    by apply (ndigits_unique 10 n); [lia..| |].
  - rewrite Nat2Z.id. destruct (format_decimal_it_ok w n (length ds) Hw Hn Hnd) as (s & Hs & ds' & Hds' & _ & ->).
    rewrite Hs. by rewrite (digits_of_unique n ds' ds).
  - intros i p Hp Hi.
    destruct (write_point_mem_ok (digits10 w + 2) n ds i p Hds Hi ltac:(lia) Hp) as ([m e] & Hr & Hm).
    rewrite Hr. cbn [bind]. rewrite Hm. apply read_all_some.
  - intros Hl. unfold write_point_mem. rewrite decide_True by done. change (Z.to_nat 1) with 1%nat.
    replace (digits10 w + 2)%nat with (1 + (digits10 w + 1))%nat by lia. rewrite replicate_add.
    pose proof (format_decimal_ok (replicate 1 None) (replicate (digits10 w + 1) None) n) as Hfd.
    rewrite replicate_length, <- Hl in Hfd. destruct (Hfd ltac:(lia) Hnd) as ([[m b] e] & Hrun & -> & -> & ds' & Hds' & Hl' & ->).
    rewrite <- Hl. rewrite Hrun. cbn [bind]. rewrite (digits_of_unique n ds' ds) by done.
    rewrite take_app_alt by (by rewrite !fmap_length). apply read_all_some.
Qed.

Lemma zeros_length n : 0 <= n -> Z.of_nat (length (zeros n)) = n.
Proof. intros. unfold zeros. rewrite replicate_length. lia. Qed.

Lemma in_field_none p f width w text : width <= w -> in_field p f width w text = text.
Proof.
  intros H. unfold in_field, padded, copies. rewrite Z.max_l by lia.
  destruct p; cbn; by rewrite ?app_nil_r.
Qed.

Lemma write_exponent_ok upper x : -10000 < x < 10000 ->
  exists cs, write_exponent x = Ok cs /\ exponent_text upper x ((if upper then 69 else 101) :: cs) /\
    Z.of_nat (length cs) = 1 + (if decide (100 <= Z.abs x) then (if decide (1000 <= Z.abs x) then 4 else 3) else 2).
Proof.
  intros Hx. unfold write_exponent, asserted.
  rewrite (proj2 (andb_true_iff _ _)) by (split; apply Z.ltb_lt; lia).
  set (a := Z.abs x). assert (Ha : 0 <= a < 10000) by lia.
  replace (if decide (x < 0) then ([45], - x) else ([43], x)) with ([if decide (x < 0) then 45 else 43], a)
    by (destruct (decide (x < 0)); f_equal; lia).
  assert (Hlo : forall y, 0 <= y < 100 -> digits2 y = Ok (digit_text [y / 10; y mod 10])) by (intros; by apply digits2_ok).
  assert (Hd : forall y m, 0 < m -> 0 <= y -> y = m * (y / m) + y mod m /\ 0 <= y mod m < m /\ 0 <= y / m).
  { intros y m Hm Hy. pose proof (Z.div_mod y m ltac:(lia)). pose proof (Z.mod_pos_bound y m Hm).
    pose proof (Z.div_pos y m Hy Hm). lia. }
  pose proof (Hd a 10 ltac:(lia) ltac:(lia)) as (H10 & ? & ?).
  pose proof (Hd a 100 ltac:(lia) ltac:(lia)) as (H100 & ? & ?).
  pose proof (Hd (a mod 100) 10 ltac:(lia) ltac:(lia)) as (Hl & ? & ?).
  pose proof (Hd (a / 100) 10 ltac:(lia) ltac:(lia)) as (Hh & ? & ?).
  assert (Hnum : forall ds, digits_of 10 a ds -> numeral 10 false a (digit_text ds)) by (intros; by apply numeral_digits).
  destruct (decide (100 <= a)) as [C1|C1].
  - rewrite Hlo by lia. cbn [bind].
    change (get (digit_text [a / 100 / 10; (a / 100) mod 10]) 1) with (Ok (digit_char false ((a / 100) mod 10))).
    change (get (digit_text [a / 100 / 10; (a / 100) mod 10]) 0) with (Ok (digit_char false (a / 100 / 10))).
    cbn [bind]. destruct (decide (1000 <= a)) as [C2|C2]; cbn [bind]; rewrite Hlo by lia; cbn [bind].
    + eexists. split; [reflexivity|]. split.
      * exists [a / 100 / 10; (a / 100) mod 10; a mod 100 / 10; (a mod 100) mod 10]. split; [|done].
        apply Hnum. split_and!; [|cbn; lia|done|cbn; intros [= ?]; lia]. repeat constructor; lia.
      * cbn. lia.
    + eexists. split; [reflexivity|]. split.
      * exists [(a / 100) mod 10; a mod 100 / 10; (a mod 100) mod 10]. split; [|done].
        apply Hnum. split_and!; [|cbn; lia|done|cbn; intros [= ?]; lia]. repeat constructor; lia.
      * cbn. lia.
  - cbn [bind]. rewrite Hlo by lia. cbn [bind]. eexists. split; [reflexivity|]. split.
    + destruct (decide (10 <= a)) as [C3|C3].
      * exists [a / 10; a mod 10]. split; [|done].
        apply Hnum. split_and!; [|cbn; lia|done|cbn; intros [= ?]; lia]. repeat constructor; lia.
      * exists [a mod 10]. assert (a / 10 = 0) as Hz by lia. rewrite Hz. split; [|done].
        apply Hnum. split_and!; [|cbn; lia|done|cbn; intros [= ?]; by f_equal]. repeat constructor; lia.
    + cbn. lia.
Qed.

(** ** do_write_float *)
Lemma sign_chars_length s : Z.of_nat (length (sign_chars s)) = sign_size s.
Proof. by destruct s. Qed.

Lemma to_unsigned_ok n : 0 <= n -> to_unsigned n = Ok n.
Proof. intros. unfold to_unsigned, asserted. by rewrite (proj2 (Z.leb_le 0 n)). Qed.

Lemma count_separators_none E n : n <= max_int -> count_separators (float_grouping E false) n = Ok 0.
Proof.
  intros. unfold float_grouping, count_separators, Model.FormatSpecs.group_next. cbn [sep loop bind].
  rewrite decide_False by lia. done.
Qed.

Section layout.
  Context (E : env) (pt : Z) (out : list Z) (s : Model.FloatLayout.significand) (ds : list Z) (e : Z) (sp : specs) (fs : float_specs).
  Hypothesis Hs : sig_ok s ds.
  Hypothesis Hloc : fs_locale fs = false.
  Hypothesis Hwidth : 0 <= width sp < 2 ^ 31.
  Let len := Z.of_nat (length ds).
  Let field text := out ++ in_field (placement_of true (al sp)) (fill sp) (width sp) (Z.of_nat (length text)) text.

  Lemma layout_exp : ds <> [] -> -9999 < e + len < 10000 -> use_exp_format fs (e + len - 1) = true ->
    exists text, do_write_float E pt out s e sp fs = Ok (field (sign_chars (fs_sign fs) ++ text)) /\
      scientific_text (fs_upper fs) (fs_showpoint fs) (if fs_showpoint fs then Z.max 0 (fs_precision fs - len) else 0) ds e text.
  Proof using Hs Hloc Hwidth.
    intros Hne Hx Huse. destruct Hs as (Hsize & Hdig & Hpt & Hone).
    assert (Hlen : 0 < len) by (unfold len; destruct ds; [done|cbn; lia]).
    unfold do_write_float. rewrite Hsize. cbn [bind]. rewrite to_unsigned_ok by lia. cbn [bind].
    fold len. rewrite Huse, Hloc.
    set (k := if fs_showpoint fs then Z.max 0 (fs_precision fs - len) else 0).
    set (point := if fs_showpoint fs then 46 else if decide (len = 1) then 0 else 46).
    assert (Hpre : (if fs_showpoint fs then
        let num_zeros := fs_precision fs - len in
        let num_zeros := if decide (num_zeros < 0) then 0 else num_zeros in
        let* z := to_unsigned num_zeros in
        Ok (num_zeros, 46, len + sign_size (fs_sign fs) + z)
      else if decide (len = 1) then Ok (0, 0, len + sign_size (fs_sign fs))
      else Ok (0, 46, len + sign_size (fs_sign fs))) = Ok (k, point, len + sign_size (fs_sign fs) + k)).
    { unfold k, point. destruct (fs_showpoint fs).
      - replace (if decide (fs_precision fs - len < 0) then 0 else fs_precision fs - len) with (Z.max 0 (fs_precision fs - len))
          by (destruct (decide (fs_precision fs - len < 0)); lia).
        cbn zeta. rewrite to_unsigned_ok by lia. done.
      - destruct (decide (len = 1)); by rewrite Z.add_0_r. }
    cbv zeta in Hpre |- *. rewrite Hpre. cbn [bind].
    destruct (write_exponent_ok (fs_upper fs) (e + len - 1) ltac:(lia)) as (cs & Hcs & Hex & Hcl).
    replace (if decide (0 <= e + len - 1) then e + len - 1 else - (e + len - 1)) with (Z.abs (e + len - 1))
      by (destruct (decide (0 <= e + len - 1)); lia).
    set (xd := if decide (100 <= Z.abs (e + len - 1)) then (if decide (1000 <= Z.abs (e + len - 1)) then 4 else 3) else 2) in *.
    assert (Hxd : 2 <= xd <= 4) by (unfold xd; clear; repeat case_decide; lia).
    rewrite to_unsigned_ok by (destruct (decide (point = 0)); lia). cbn [bind].
    set (ptext := if decide (length ds = 1%nat /\ fs_showpoint fs = false) then [] else [46]).
    assert (Hw : write_point s len 1 point = Ok (digit_text (take 1 ds) ++ ptext ++ digit_text (drop 1 ds))).
    { unfold point, ptext. destruct (decide (length ds = 1%nat /\ fs_showpoint fs = false)) as [[H1 H2]|H1].
      - rewrite H2. rewrite decide_True by (unfold len; lia). replace len with 1 by (unfold len; lia). rewrite (Hone H1).
        rewrite (firstn_all2 ds), (skipn_all2 ds) by lia. by rewrite app_nil_r.
      - replace (if fs_showpoint fs then 46 else if decide (len = 1) then 0 else 46) with 46.
        + apply (Hpt 1%nat 46); [done|]. unfold len in Hlen. lia.
        + destruct (fs_showpoint fs); [done|]. rewrite decide_False; [done|]. intros Hl. apply H1. split; [unfold len in Hl; lia|done]. }
    assert (Hpl : Z.of_nat (length ptext) = if decide (point = 0) then 0 else 1).
    { unfold ptext, point. destruct (decide (length ds = 1%nat /\ fs_showpoint fs = false)) as [[H1 H2]|H1].
      - rewrite H2. rewrite (decide_True (P := len = 1)) by (unfold len; lia). by rewrite decide_True.
      - rewrite decide_False; [done|]. destruct (fs_showpoint fs); [done|]. rewrite decide_False; [done|].
        intros Hl. apply H1. split; [unfold len in Hl; lia|done]. }
    set (text := digit_text (take 1 ds) ++ ptext ++ digit_text (drop 1 ds) ++ zeros k ++ (if fs_upper fs then 69 else 101) :: cs).
    assert (Hk : 0 <= k) by (unfold k; destruct (fs_showpoint fs); lia).
    exists text. split; [|exists ((if fs_upper fs then 69 else 101) :: cs); split; [|done]; by replace (Z.of_nat (length ds) + e - 1) with (e + len - 1) by (unfold len; lia)].
    assert (Hwr : forall it, (let it0 := it ++ sign_chars (fs_sign fs) in
        let* cs := write_point s len 1 point in
        let it1 := it0 ++ cs ++ replicate (Z.to_nat k) 48 in
        let it2 := it1 ++ [if fs_upper fs then 69 else 101] in
        let* cs0 := write_exponent (e + len - 1) in Ok (it2 ++ cs0)) = Ok (it ++ sign_chars (fs_sign fs) ++ text)).
    { intros it. cbn zeta. rewrite Hw. cbn [bind]. rewrite Hcs. cbn [bind]. unfold text, zeros. f_equal.
      rewrite <- !app_assoc. done. }
    assert (Hl : len + sign_size (fs_sign fs) + k + ((if decide (point = 0) then 0 else 1) + 2 + xd)
                 = Z.of_nat (length (sign_chars (fs_sign fs) ++ text))).
    { unfold text. rewrite !app_length. cbn [length]. rewrite !digit_text_length, take_length, drop_length.
      pose proof (sign_chars_length (fs_sign fs)). pose proof (zeros_length k Hk).
      unfold len in Hlen |- *. lia. }
    rewrite Hl.
    destruct (decide (width sp > 0)) as [Hwd|Hwd].
    - by apply write_padded_ok; [|lia|].
    - etransitivity; [apply Hwr|]. unfold field. rewrite in_field_none by lia. done.
  Qed.

  Lemma layout_int : 0 <= e -> 0 < len -> e + len <= max_int -> use_exp_format fs (e + len - 1) = false ->
    do_write_float E pt out s e sp fs
    = Ok (field (sign_chars (fs_sign fs) ++ fixed_text (fs_showpoint fs) (Z.max 0 (fs_precision fs - (e + len))) ds e)).
  Proof using Hs Hloc Hwidth.
    intros He Hlen Hmax Huse. destruct Hs as (Hsize & Hdig & _ & _). fold len in Hsize, Hdig.
    unfold do_write_float. rewrite Hsize. cbn [bind]. rewrite to_unsigned_ok by lia. cbn [bind].
    fold len. rewrite Huse, Hloc. rewrite decide_True by done. rewrite to_unsigned_ok by done. cbn [bind].
    set (k := Z.max 0 (fs_precision fs - (e + len))).
    unfold fixed_text. rewrite (decide_True (P := 0 <= e)) by done.
    destruct (fs_showpoint fs) eqn:Hsp; cbn [bind negb].
    - set (nz := if decide (fs_precision fs - (e + len) <= 0 /\ fs_format fs <> Fixed) then 0 else fs_precision fs - (e + len)).
      assert (Hnz : Z.max 0 nz = k) by (unfold nz, k; destruct (decide _); lia).
      assert (Hsz : (if decide (nz > 0) then let* z := to_unsigned nz in Ok (nz, len + sign_size (fs_sign fs) + e + 1 + z)
                else Ok (nz, len + sign_size (fs_sign fs) + e + 1)) = Ok (nz, len + sign_size (fs_sign fs) + e + 1 + k)).
      { destruct (decide (nz > 0)); [rewrite to_unsigned_ok by lia; cbn [bind]|]; do 2 f_equal; lia. }
      rewrite Hsz. cbn [bind]. rewrite count_separators_none by lia. cbn [bind]. rewrite to_unsigned_ok by done. cbn [bind].
      set (text := sign_chars (fs_sign fs) ++ digit_text ds ++ zeros e ++ [46] ++ zeros k).
      assert (Hl : len + sign_size (fs_sign fs) + e + 1 + k + 0 = Z.of_nat (length text)).
      { unfold text. rewrite !app_length, digit_text_length. cbn [length].
        pose proof (sign_chars_length (fs_sign fs)). pose proof (zeros_length k ltac:(lia)). pose proof (zeros_length e He).
        unfold len. lia. }
      rewrite Hl. apply write_padded_ok; [done|lia|].
      intros it. cbn zeta. unfold write_with_zeros. rewrite Hdig. cbn [bind has_separator float_grouping sep].
      f_equal. unfold text, zeros. rewrite <- !app_assoc. do 4 f_equal. cbn. do 2 f_equal. lia.
    - rewrite count_separators_none by lia. cbn [bind]. rewrite to_unsigned_ok by done. cbn [bind].
      set (text := sign_chars (fs_sign fs) ++ digit_text ds ++ zeros e ++ []).
      assert (Hl : len + sign_size (fs_sign fs) + e + 0 = Z.of_nat (length text)).
      { unfold text. rewrite !app_length, digit_text_length. cbn [length].
        pose proof (sign_chars_length (fs_sign fs)). pose proof (zeros_length e He). unfold len. lia. }
      rewrite Hl. apply write_padded_ok; [done|lia|].
      intros it. cbn zeta. unfold write_with_zeros. rewrite Hdig. cbn [bind has_separator float_grouping sep].
      f_equal. unfold text, zeros. by rewrite <- !app_assoc, app_nil_r.
  Qed.

  Lemma layout_mixed : e < 0 -> 0 < e + len <= max_int -> use_exp_format fs (e + len - 1) = false ->
    do_write_float E pt out s e sp fs
    = Ok (field (sign_chars (fs_sign fs) ++ fixed_text (fs_showpoint fs) (if fs_showpoint fs then Z.max 0 (fs_precision fs - len) else 0) ds e)).
  Proof using Hs Hloc Hwidth.
    intros He Hlen Huse. destruct Hs as (Hsize & _ & Hpt & _).
    unfold do_write_float. rewrite Hsize. cbn [bind]. rewrite to_unsigned_ok by lia. cbn [bind].
    fold len. rewrite Huse, Hloc. rewrite decide_False by lia. rewrite decide_True by lia.
    set (nz := if fs_showpoint fs then fs_precision fs - len else 0).
    set (k := if fs_showpoint fs then Z.max 0 (fs_precision fs - len) else 0).
    assert (Hk : (if decide (nz > 0) then nz else 0) = k) by (unfold nz, k; destruct (fs_showpoint fs), (decide _); lia).
    assert (Hk0 : 0 <= k) by (unfold k; destruct (fs_showpoint fs); lia).
    rewrite Hk, to_unsigned_ok by done. cbn [bind]. rewrite count_separators_none by lia. cbn [bind].
    rewrite to_unsigned_ok by done. cbn [bind].
    unfold fixed_text. rewrite (decide_False (P := 0 <= e)) by lia. fold len. rewrite (decide_True (P := 0 < len + e)) by lia.
    replace (len + e) with (e + len) by lia.
    set (i := Z.to_nat (e + len)).
    set (text := sign_chars (fs_sign fs) ++ digit_text (take i ds) ++ [46] ++ digit_text (drop i ds) ++ zeros k).
    assert (Hl : len + sign_size (fs_sign fs) + 1 + k + 0 = Z.of_nat (length text)).
    { unfold text. rewrite !app_length, !digit_text_length, take_length, drop_length. cbn [length].
      pose proof (sign_chars_length (fs_sign fs)). pose proof (zeros_length k ltac:(lia)). unfold len in *. lia. }
    rewrite Hl. apply write_padded_ok; [done|lia|].
    intros it. cbn zeta. unfold write_point_grouped.
    pose proof (Hpt i 46 ltac:(done) ltac:(unfold i, len in *; lia)) as Hw.
    replace (Z.of_nat i) with (e + len) in Hw by (unfold i; lia). fold len in Hw. rewrite Hw.
    cbn [bind has_separator float_grouping sep].
    f_equal. unfold text, zeros. rewrite <- !app_assoc. cbn. do 5 f_equal. f_equal. unfold nz, k. destruct (fs_showpoint fs); lia.
  Qed.

  Lemma layout_small : e + len <= 0 -> 0 < len -> use_exp_format fs (e + len - 1) = false ->
    do_write_float E pt out s e sp fs
    = Ok (field (sign_chars (fs_sign fs) ++ fixed_text (fs_showpoint fs) 0 ds e)).
  Proof using Hs Hloc Hwidth.
    intros He Hlen Huse. destruct Hs as (Hsize & Hdig & _ & _). fold len in Hsize, Hdig.
    unfold do_write_float. rewrite Hsize. cbn [bind]. rewrite to_unsigned_ok by lia. cbn [bind].
    fold len. rewrite Huse, Hloc. rewrite decide_False by lia. rewrite decide_False by lia.
    rewrite decide_False by lia.
    replace (negb (- (e + len) =? 0) || negb (len =? 0) || fs_showpoint fs) with true
      by (rewrite (proj2 (Z.eqb_neq len 0)) by lia; cbn; by rewrite orb_true_r).
    rewrite to_unsigned_ok by lia. cbn [bind negb].
    unfold fixed_text. rewrite (decide_False (P := 0 <= e)) by lia. fold len. rewrite (decide_False (P := 0 < len + e)) by lia.
    replace (len + e) with (e + len) by lia.
    set (text := sign_chars (fs_sign fs) ++ [48; 46] ++ zeros (- (e + len)) ++ digit_text ds ++ zeros 0).
    assert (Hl : len + sign_size (fs_sign fs) + 1 + 1 + - (e + len) = Z.of_nat (length text)).
    { unfold text. rewrite !app_length, !digit_text_length. cbn [length].
      pose proof (sign_chars_length (fs_sign fs)). pose proof (zeros_length (- (e + len)) ltac:(lia)). pose proof (zeros_length 0 ltac:(lia)). unfold len in *. lia. }
    rewrite Hl. apply write_padded_ok; [done|lia|].
    intros it. cbn zeta. rewrite Hdig. cbn [bind]. f_equal. unfold text, zeros. rewrite <- !app_assoc. cbn.
    by rewrite app_nil_r.
  Qed.
End layout.
