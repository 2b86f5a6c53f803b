(** Proofs about writing values with format specs. *)
From Verif Require Import Base.Cpp Model.Numeric Model.FmtInt Model.Utf8 Model.Escape Model.Format.
From Verif Require Import Spec.FormatSpec Spec.Utf8Spec Proofs.FmtIntProofs Proofs.Utf8Decode Proofs.Utf8Proofs.
Set Default Proof Using "Type".
Local Open Scope Z_scope.
Ltac Zify.zify_post_hook ::= idtac.

Lemma numeral_unique b u n s s' : 1 < b -> numeral b u n s -> numeral b u n s' -> s = s'.
Proof.
  intros Hb (ds & -> & H) (ds' & -> & H'). f_equal.
  pose proof (digits_of_ndigits b n ds Hb H) as Hl. pose proof (digits_of_ndigits b n ds' Hb H') as Hl'.
  assert (Hn : 0 <= n).
  { destruct H as (Hf & <- & _). by apply number_bound. }
  pose proof (ndigits_unique b n _ _ Hb Hn Hl Hl') as Hlen.
  destruct H as (Hf & Hnum & _), H' as (Hf' & Hnum' & _). rewrite <- Hnum' in Hnum. clear Hl Hl' Hnum' Hn n.
  apply Nat2Z.inj in Hlen.
  revert ds' Hf' Hlen Hnum. induction Hf as [|d ds Hd Hf IH]; intros [|d' ds'] Hf' Hlen Hnum; try done.
  apply Forall_cons in Hf' as [Hd' Hf']. cbn in Hlen. injection Hlen as Hlen.
  rewrite !number_cons, Hlen in Hnum.
  pose proof (number_bound b ds Hb Hf) as B. pose proof (number_bound b ds' Hb Hf') as B'. rewrite Hlen in B.
  assert (d = d') as ->.
  { assert (0 < b ^ Z.of_nat (length ds')) by lia. destruct (Z.lt_trichotomy d d') as [|[|]]; [nia|done|nia]. }
  f_equal. apply IH; [done|done|lia].
Qed.

(** ** Padding *)

Lemma fill_with_eq out n f : fill_with out n f = out ++ concat (replicate n f).
Proof.
  revert out. induction n as [|n IH]; intros out; cbn [replicate concat].
  - by rewrite app_nil_r.
  - change (fill_with out (S n) f) with (fill_with out n f ++ f). rewrite IH. rewrite <- app_assoc. f_equal. clear. induction n as [|n IH]; cbn; [by rewrite app_nil_r|].
    by rewrite <- app_assoc, IH.
Qed.
Lemma fill_with_copies out n f : 0 <= n -> fill_with out (Z.to_nat n) f = out ++ copies n f.
Proof. intros _. apply fill_with_eq. Qed.
Lemma copies_0 f : copies 0 f = [].
Proof. done. Qed.
Lemma copies_one n c : copies n [c] = replicate (Z.to_nat n) c.
Proof. unfold copies. induction (Z.to_nat n) as [|k IH]; cbn; [done|]. by rewrite IH. Qed.

Definition placement_of (right : bool) (a : align) : placement :=
  match a with
  | ANone => if right then PlRight else PlLeft
  | ALeft => PlLeft | ARight => PlRight | ACenter => PlCenter | ANumeric => PlRight
  end.

Lemma write_padded_ok right out sp size wd f text :
  0 <= width sp < 2 ^ 31 -> 0 <= wd -> (forall it, f it = Ok (it ++ text)) ->
  write_padded right out sp size wd f
  = Ok (out ++ in_field (placement_of right (al sp)) (fill sp) (width sp) wd text).
Proof.
  intros Hw Hwd Hf. unfold write_padded, in_field.
  set (padding := if decide (width sp > wd) then width sp - wd else 0).
  assert (Hp : Z.max 0 (width sp - wd) = padding) by (unfold padding; case_decide; lia). rewrite Hp.
  assert (Hr : 0 <= padding < 2 ^ 31) by (unfold padding; case_decide; lia). clearbody padding.
  assert (Hsh : forall k, 0 <= k ->
    (let left_padding := Z.shiftr padding k in
     let right_padding := padding - left_padding in
     let it := if decide (left_padding <> 0) then fill_with out (Z.to_nat left_padding) (fill sp) else out in
     let* it := f it in
     Ok (if decide (right_padding <> 0) then fill_with it (Z.to_nat right_padding) (fill sp) else it))
    = Ok (out ++ copies (padding / 2 ^ k) (fill sp) ++ text ++ copies (padding - padding / 2 ^ k) (fill sp))).
  { intros k Hk. cbv zeta. rewrite Z.shiftr_div_pow2 by done. set (l := padding / 2 ^ k).
    assert (0 <= l <= padding).
    { unfold l. split; [apply Z.div_pos; lia|]. apply Z.div_le_upper_bound; [lia|]. nia. }
    rewrite Hf. cbn [bind]. f_equal.
    assert (Hl : (if decide (l <> 0) then fill_with out (Z.to_nat l) (fill sp) else out) = out ++ copies l (fill sp)).
    { case_decide as E; [apply fill_with_copies; lia|]. replace l with 0 by lia. by rewrite copies_0, app_nil_r. }
    rewrite Hl. destruct (decide (padding - l <> 0)) as [E|E].
    - rewrite fill_with_copies by lia. by rewrite <- !app_assoc.
    - replace (padding - l) with 0 by lia. rewrite copies_0, app_nil_r. by rewrite <- app_assoc. }
  assert (H31 : padding / 2 ^ 31 = 0) by (apply Z.div_small; lia).
  destruct (al sp), right; cbn [align_index placement_of get lookup list_lookup bind padded];
    rewrite Hsh by lia; rewrite ?H31, ?Z.pow_0_r, ?Z.div_1_r, ?Z.sub_diag, ?Z.sub_0_r, ?copies_0, ?app_nil_r; done.
Qed.

(** ** Prefixes *)

Definition prefix_ok (prefix : Z) (chars : list Z) : Prop :=
  Z.shiftr prefix 24 = Z.of_nat (length chars) /\ (prefix = 0 <-> chars = []) /\
  forall out, put_prefix out prefix = Ok (out ++ chars).

Lemma put_prefix_out out prefix : put_prefix out prefix = let* cs := put_prefix [] prefix in Ok (out ++ cs).
Proof.
  unfold put_prefix. generalize (Z.land prefix 16777215) as p.
  assert (H : forall n (o1 o2 : list Z) p,
    loop n (fun '(out, p) => Ok (if decide (p <> 0) then inl (out ++ [Z.land p 255], Z.shiftr p 8) else inr out)) (o1 ++ o2, p)
    = let* cs := loop n (fun '(out, p) => Ok (if decide (p <> 0) then inl (out ++ [Z.land p 255], Z.shiftr p 8) else inr out)) (o2, p) in
      Ok (o1 ++ cs)).
  { induction n as [|n IH]; intros o1 o2 p; cbn [loop bind]; [done|]. case_decide; [|done]. by rewrite <- app_assoc, IH. }
  intros p. rewrite <- (app_nil_r out) at 1. apply H.
Qed.

Definition prefix_okb (prefix : Z) (chars : list Z) : bool :=
  (Z.shiftr prefix 24 =? Z.of_nat (length chars)) && bool_decide (prefix = 0 <-> chars = []) &&
  match put_prefix [] prefix with Ok cs => bool_decide (cs = chars) | _ => false end.
Lemma prefix_okb_ok prefix chars : prefix_okb prefix chars = true -> prefix_ok prefix chars.
Proof.
  unfold prefix_okb, prefix_ok. intros [[H1 H2]%andb_prop H3]%andb_prop.
  split; [by apply Z.eqb_eq|]. split; [by apply bool_decide_eq_true in H2|].
  intros out. rewrite put_prefix_out. destruct (put_prefix [] prefix); try done.
  apply bool_decide_eq_true in H3 as ->. done.
Qed.

Definition plus_of (s : sign) : list Z := match s with SNone | SMinus => [] | SPlus => [43] | SSpace => [32] end.
Definition sgn_prefix (s : sign) (neg : bool) : Z :=
  if neg then sign_prefix 45 else match s with SNone | SMinus => 0 | SPlus => sign_prefix 43 | SSpace => sign_prefix 32 end.
Definition base_value (b : base) : Z :=
  match b with
  | Dec => 0 | Oct => 48
  | Hex u => Z.lor (Z.shiftl (if u then 88 else 120) 8) 48
  | Bin u => Z.lor (Z.shiftl (if u then 66 else 98) 8) 48
  end.
Definition base_chars (b : base) : list Z :=
  match b with Dec => [] | Oct => [48] | Hex u => [48; if u then 88 else 120] | Bin u => [48; if u then 66 else 98] end.

Lemma sgn_prefix_ok s neg : prefix_ok (sgn_prefix s neg) (if neg then [45] else plus_of s).
Proof. apply prefix_okb_ok. destruct s, neg; vm_compute; reflexivity. Qed.
Lemma base_prefix_ok s neg b : b <> Dec ->
  prefix_ok (prefix_append (sgn_prefix s neg) (base_value b)) ((if neg then [45] else plus_of s) ++ base_chars b).
Proof. intros Hb. apply prefix_okb_ok. destruct b as [| |[]|[]]; [done|..]; destruct s, neg; vm_compute; reflexivity. Qed.

(** ** Digits with a prefix *)

Lemma lor_zero a b : 0 <= a -> 0 <= b -> Z.lor a b = 0 -> a = 0 /\ b = 0.
Proof. intros Ha Hb H. by apply Z.lor_eq_0_iff. Qed.

Lemma write_int_digits_ok out nd prefix sp wd pc ds :
  0 <= width sp < 2 ^ 31 -> precision sp = -1 -> prefix_ok prefix pc -> nd = Z.of_nat (length ds) ->
  (forall it, wd it = Ok (it ++ ds)) ->
  write_int_digits out nd prefix sp wd =
  let n := Z.of_nat (length (pc ++ ds)) in
  Ok (out ++ if decide (al sp = ANumeric) then pc ++ copies (Z.max 0 (width sp - n)) [48] ++ ds
             else in_field (placement_of true (al sp)) (fill sp) (width sp) n (pc ++ ds)).
Proof.
  intros Hw Hp (Hn & H0 & Hput) Hnd Hwd. cbv zeta. rewrite app_length.
  unfold write_int_digits. rewrite Hp. change (-1 + 1) with 0. rewrite Z.lor_0_r.
  case_decide as Hw0.
  - rewrite Hw0. unfold in_field.
    assert ((if decide (prefix <> 0) then put_prefix out prefix else Ok out) = Ok (out ++ pc)) as ->.
    { case_decide as E; [apply Hput|]. destruct (decide (prefix = 0)) as [E'|]; [|tauto]. apply H0 in E' as ->. by rewrite app_nil_r. }
    cbn [bind]. rewrite Hwd. rewrite Z.max_l by lia. rewrite <- app_assoc. do 2 f_equal.
    case_decide as Ha; [done|]. destruct (al sp); cbn; by rewrite ?app_nil_r.
  - rewrite Hn. destruct (decide (al sp = ANumeric)) as [Ha|Ha].
    + assert (E : (if decide (width sp > Z.of_nat (length pc) + nd)
                   then (width sp, width sp - (Z.of_nat (length pc) + nd))
                   else (Z.of_nat (length pc) + nd, 0))
                  = (Z.max (width sp) (Z.of_nat (length pc) + nd), Z.max 0 (width sp - (Z.of_nat (length pc) + nd)))).
      { case_decide; f_equal; lia. }
      rewrite E. clear E.
      rewrite (write_padded_ok _ _ _ _ _ _ (pc ++ copies (Z.max 0 (width sp - Z.of_nat (length pc + length ds))) [48] ++ ds)); [|done|lia|].
      * rewrite Ha. cbn [placement_of]. unfold in_field. rewrite (Z.max_l 0) by lia. cbn [padded]. by rewrite copies_0.
      * intros it. rewrite Hput. cbn [bind]. rewrite Hwd. f_equal. rewrite <- !app_assoc, copies_one. do 4 f_equal. lia.
    + rewrite decide_False by lia.
      rewrite (write_padded_ok _ _ _ _ _ _ (pc ++ ds)); [|done|lia|].
      * do 3 f_equal. lia.
      * intros it. rewrite Hput. cbn [bind Z.to_nat replicate]. rewrite Hwd, app_nil_r. by rewrite <- app_assoc.
Qed.

(** ** Integers *)

Definition base_of (p : pres) : option base :=
  match p with
  | PNone | PDec => Some Dec | POct => Some Oct
  | PHexLower => Some (Hex false) | PHexUpper => Some (Hex true)
  | PBinLower => Some (Bin false) | PBinUpper => Some (Bin true)
  | _ => None
  end.

Lemma wp_eq {A} (r : res A) (P : A -> Prop) : wp r P -> exists a, r = Ok a /\ P a.
Proof. done. Qed.

Lemma make_write_int_arg_ok t z s : int_type t -> in_range t z = true ->
  make_write_int_arg t z s = (Z.abs z, sgn_prefix s (bool_decide (z < 0))).
Proof.
  intros Ht Hz. destruct (in_range_uwidth t z Ht Hz) as [Hr _]. pose proof (uwidth_cases t) as Hw.
  unfold make_write_int_arg, sgn_prefix. rewrite is_negative_eq by done. case_bool_decide.
  - rewrite neg_mod by lia. f_equal. lia.
  - rewrite Z.mod_small by lia. f_equal. lia.
Qed.

Definition int_result (sp : specs) (b : base) (z : Z) (text : list Z) : Prop :=
  exists zeros body, int_text (plus_of (sgn sp)) (alt sp) b zeros z body /\
  let w := Z.of_nat (length body) - zeros in
  if decide (al sp = ANumeric) then text = body /\ zeros = Z.max 0 (width sp - w)
  else zeros = 0 /\ text = in_field (placement_of true (al sp)) (fill sp) (width sp) w body.

Lemma fmap_length_Z {A B} (f : A -> B) l : Z.of_nat (length (f <$> l)) = Z.of_nat (length l).
Proof. by rewrite fmap_length. Qed.

Lemma write_int_arg_ok E w z sp b :
  (w = 32 \/ w = 64) -> Z.abs z < 2 ^ w -> 0 <= width sp < 2 ^ 31 -> precision sp = -1 -> base_of (typ sp) = Some b ->
  exists text, int_result sp b z text /\
    forall out, write_int_arg E out w (Z.abs z) (sgn_prefix (sgn sp) (bool_decide (z < 0))) sp = Ok (out ++ text).
Proof.
  intros Hw Hz Hwidth Hprec Hb.
  (* The digits, and the prefix. *)
  assert (Hgo : forall nd prefix pc ds wd,
    prefix_ok prefix pc -> pc = sign_text (plus_of (sgn sp)) z ++ (if alt sp then base_prefix b z else []) ->
    numeral (radix b) (big b) (Z.abs z) ds -> nd = Z.of_nat (length ds) -> (forall it, wd it = Ok (it ++ ds)) ->
    exists text, int_result sp b z text /\ forall out, write_int_digits out nd prefix sp wd = Ok (out ++ text)).
  { intros nd prefix pc ds wd Hpre Hpc Hds Hnd Hwd. eexists. split; cycle 1.
    { intros out'. rewrite (write_int_digits_ok out' nd prefix sp wd pc ds) by done. reflexivity. }
    set (n := Z.of_nat (length (pc ++ ds))).
    destruct (decide (al sp = ANumeric)) as [Ha|Ha].
    - exists (Z.max 0 (width sp - n)), (pc ++ copies (Z.max 0 (width sp - n)) [48] ++ ds). split.
      + exists ds. split; [done|]. rewrite Hpc. by rewrite <- !app_assoc.
      + cbv zeta. rewrite decide_True by done. split; [done|]. f_equal. f_equal.
        rewrite !app_length, copies_one, replicate_length. unfold n. rewrite app_length. lia.
    - exists 0, (pc ++ ds). split.
      + exists ds. split; [done|]. rewrite Hpc, copies_0. cbn [app]. by rewrite <- !app_assoc.
      + cbv zeta. rewrite decide_False by done. split; [done|]. by rewrite Z.sub_0_r. }
  assert (Hsg : sign_text (plus_of (sgn sp)) z = (if bool_decide (z < 0) then [45] else plus_of (sgn sp))).
  { unfold sign_text. case_bool_decide; [by rewrite decide_True|by rewrite decide_False]. }
  assert (Hbits : forall bits upper, 1 <= bits <= 4 -> exists nd ds,
    count_digits_bits w bits (Z.abs z) = Ok nd /\ nd = Z.of_nat (length ds) /\ numeral (2 ^ bits) upper (Z.abs z) ds /\
    forall it, write_uint_digits E w bits nd (Z.abs z) upper it = Ok (it ++ ds)).
  { intros bits upper Hbits. destruct (count_digits_bits_ok w bits (Z.abs z)) as (nd & Hnd & Hc); [done|lia|lia|].
    assert (Hnd1 : 1 <= nd) by apply Hc. assert (1 < 2 ^ bits) by (apply Z.pow_gt_1; lia).
    destruct (format_uint_it_ok true w bits (Z.abs z) (Z.to_nat nd) upper) as (s & Hs & ds & Hds & Hlen & ->);
      [done|done|lia|by rewrite Z2Nat.id by lia|].
    exists nd, (digit_char upper <$> ds). split; [done|]. split; [rewrite fmap_length_Z; lia|].
    split; [by apply numeral_digits|]. intros it. unfold write_uint_digits.
    destruct (format_uint_it_ok (room E it (Z.to_nat nd)) w bits (Z.abs z) (Z.to_nat nd) upper) as (s' & -> & ds' & Hds' & Hlen' & ->);
      [done|done|lia|by rewrite Z2Nat.id by lia|].
    cbn [bind]. do 2 f_equal. eapply (numeral_unique (2 ^ bits)); [done|by apply numeral_digits|by apply numeral_digits]. }
  unfold write_int_arg. destruct (typ sp) eqn:Ht; try discriminate Hb; injection Hb as <-.
  1,2: destruct (count_digits_ok w (Z.abs z)) as (nd & Hnd & Hc); [done|lia|];
    assert (Hnd1 : 1 <= nd) by apply Hc;
    destruct (format_decimal_it_ok w (Z.abs z) (Z.to_nat nd)) as (s & Hs & ds & Hds & Hlen & ->);
      [done|lia|by rewrite Z2Nat.id by lia|];
    destruct (Hgo nd (sgn_prefix (sgn sp) (bool_decide (z < 0))) _ (digit_char false <$> ds)
      (fun it => let* cs := format_decimal_it w (Z.abs z) (Z.to_nat nd) in Ok (it ++ cs)) (sgn_prefix_ok _ _))
      as (text & Htext & Hout);
    [rewrite Hsg; destruct (alt sp); by rewrite app_nil_r
    |by apply numeral_digits
    |rewrite fmap_length_Z; lia
    |intros it; by rewrite Hs
    |exists text; split; [done|]; intros out'; rewrite Hnd; cbn [bind]; apply Hout].
  - destruct (Hbits 3 false ltac:(lia)) as (nd & ds & Hnd & Hlen & Hds & Hwd).
    destruct (Hgo nd (if decide (alt sp = true /\ precision sp <= nd /\ Z.abs z <> 0)
                      then prefix_append (sgn_prefix (sgn sp) (bool_decide (z < 0))) 48
                      else sgn_prefix (sgn sp) (bool_decide (z < 0)))
                 (sign_text (plus_of (sgn sp)) z ++ (if alt sp then base_prefix Oct z else [])) ds
                 (write_uint_digits E w 3 nd (Z.abs z) false)) as (text & Htext & Hout);
      [|done|done|done|done|].
    { rewrite Hsg. cbn [base_prefix]. rewrite Hprec. destruct (decide (alt sp = true /\ -1 <= nd /\ Z.abs z <> 0)) as [Hd|Hd].
      - destruct Hd as (-> & _ & Hne). rewrite decide_False by lia. exact (base_prefix_ok _ _ Oct ltac:(discriminate)).
      - assert ((if alt sp then if decide (z = 0) then [] else [48] else []) = []) as ->.
        { destruct (alt sp); [|done]. rewrite decide_True; [done|]. destruct (decide (z = 0)); [done|]. exfalso. apply Hd.
          split; [done|]. lia. }
        rewrite app_nil_r. apply sgn_prefix_ok. }
    exists text. split; [done|]. intros out'. rewrite Hnd. cbn [bind]. apply Hout.
  - destruct (Hbits 4 false ltac:(lia)) as (nd & ds & Hnd & Hlen & Hds & Hwd).
    destruct (Hgo nd (if alt sp then prefix_append (sgn_prefix (sgn sp) (bool_decide (z < 0))) (base_value (Hex false))
                      else sgn_prefix (sgn sp) (bool_decide (z < 0)))
                 (sign_text (plus_of (sgn sp)) z ++ (if alt sp then base_prefix (Hex false) z else [])) ds
                 (write_uint_digits E w 4 nd (Z.abs z) false)) as (text & Htext & Hout); [|done|done|done|done|].
    { rewrite Hsg. destruct (alt sp); [exact (base_prefix_ok _ _ (Hex false) ltac:(discriminate))|rewrite app_nil_r; apply sgn_prefix_ok]. }
    exists text. split; [done|]. intros out'. rewrite Hnd. cbn [bind]. apply Hout.
  - destruct (Hbits 4 true ltac:(lia)) as (nd & ds & Hnd & Hlen & Hds & Hwd).
    destruct (Hgo nd (if alt sp then prefix_append (sgn_prefix (sgn sp) (bool_decide (z < 0))) (base_value (Hex true))
                      else sgn_prefix (sgn sp) (bool_decide (z < 0)))
                 (sign_text (plus_of (sgn sp)) z ++ (if alt sp then base_prefix (Hex true) z else [])) ds
                 (write_uint_digits E w 4 nd (Z.abs z) true)) as (text & Htext & Hout); [|done|done|done|done|].
    { rewrite Hsg. destruct (alt sp); [exact (base_prefix_ok _ _ (Hex true) ltac:(discriminate))|rewrite app_nil_r; apply sgn_prefix_ok]. }
    exists text. split; [done|]. intros out'. rewrite Hnd. cbn [bind]. apply Hout.
  - destruct (Hbits 1 false ltac:(lia)) as (nd & ds & Hnd & Hlen & Hds & Hwd).
    destruct (Hgo nd (if alt sp then prefix_append (sgn_prefix (sgn sp) (bool_decide (z < 0))) (base_value (Bin false))
                      else sgn_prefix (sgn sp) (bool_decide (z < 0)))
                 (sign_text (plus_of (sgn sp)) z ++ (if alt sp then base_prefix (Bin false) z else [])) ds
                 (write_uint_digits E w 1 nd (Z.abs z) false)) as (text & Htext & Hout); [|done|done|done|done|].
    { rewrite Hsg. destruct (alt sp); [exact (base_prefix_ok _ _ (Bin false) ltac:(discriminate))|rewrite app_nil_r; apply sgn_prefix_ok]. }
    exists text. split; [done|]. intros out'. rewrite Hnd. cbn [bind]. apply Hout.
  - destruct (Hbits 1 false ltac:(lia)) as (nd & ds & Hnd & Hlen & Hds & Hwd).
    destruct (Hgo nd (if alt sp then prefix_append (sgn_prefix (sgn sp) (bool_decide (z < 0))) (base_value (Bin true))
                      else sgn_prefix (sgn sp) (bool_decide (z < 0)))
                 (sign_text (plus_of (sgn sp)) z ++ (if alt sp then base_prefix (Bin true) z else [])) ds
                 (write_uint_digits E w 1 nd (Z.abs z) false)) as (text & Htext & Hout); [|done|done|done|done|].
    { rewrite Hsg. destruct (alt sp); [exact (base_prefix_ok _ _ (Bin true) ltac:(discriminate))|rewrite app_nil_r; apply sgn_prefix_ok]. }
    exists text. split; [done|]. intros out'. rewrite Hnd. cbn [bind]. apply Hout.
Qed.

Lemma numeral_inj u b n n' s : b <= 16 -> numeral b u n s -> numeral b u n' s -> n = n'.
Proof.
  intros Hb (ds & -> & Hf & <- & _) (ds' & Heq & Hf' & <- & _). f_equal. revert ds' Heq Hf'.
  induction Hf as [|d ds Hd Hf IH]; intros [|d' ds'] Heq Hf'; try done. cbn in Heq. injection Heq as H1 H2.
  apply Forall_cons in Hf' as [Hd' Hf']. f_equal; [|by apply IH].
  revert H1. unfold digit_char. destruct u; repeat case_decide; lia.
Qed.
Lemma decimal_inj z z' s : decimal z s -> decimal z' s -> z = z'.
Proof.
  intros (ds & H & ->) (ds' & H' & Heq).
  assert (Hno : forall n l l', numeral 10 false n l -> l <> 45 :: l').
  { intros n l l' (es & -> & Hf & _) He. destruct es as [|e es]; [done|]. apply Forall_cons in Hf as [Hd _].
    rewrite fmap_cons in He. injection He as He _. revert He. unfold digit_char. rewrite decide_True by lia. lia. }
  destruct (decide (z < 0)) as [Hz|Hz], (decide (z' < 0)) as [Hz'|Hz']; cbn [app] in Heq.
  - injection Heq as <-. pose proof (numeral_inj false 10 _ _ _ ltac:(lia) H H'). lia.
  - exfalso. symmetry in Heq. by apply (Hno _ _ _ H') in Heq.
  - exfalso. by apply (Hno _ _ _ H) in Heq.
  - rewrite <- Heq in H'. pose proof (numeral_inj false 10 _ _ _ ltac:(lia) H H'). lia.
Qed.
Lemma decimal_unique z s s' : decimal z s -> decimal z s' -> s = s'.
Proof. intros (ds & H & ->) (ds' & H' & ->). f_equal. by apply (numeral_unique 10 false (Z.abs z)). Qed.
