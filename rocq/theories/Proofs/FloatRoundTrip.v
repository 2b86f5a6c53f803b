(** Enough digits tell numbers apart. *)
From Coq Require Import QArith Qpower Qabs Lqa.
From Verif Require Import Base.Cpp Model.FmtInt Model.Dragonbox Spec.FormatSpec Spec.FloatSpec Spec.FloatText Spec.FloatRound Spec.FloatField
  Proofs.FmtIntProofs Proofs.FloatSpecProofs Proofs.DragonboxArith Proofs.DragonboxProofs Proofs.FloatLayoutProofs Proofs.FloatTextProofs
  Proofs.FloatPrecisionProofs.
Set Default Proof Using "Type".
Ltac Zify.zify_post_hook ::= idtac.
Local Open Scope Z_scope.
Local Notation decimal := FloatSpec.decimal.

Lemma rounded_reads F (x : FloatSpec.number F) n q : 2 <= prec F -> valid x -> 0 < significand x -> 1 <= n -> 2 ^ prec F < 10 ^ (n - 1) ->
  rounded_to (value x) n q -> reads_as q x.
Proof.
  intros Hp Hv Hpos Hn Hdig (X & M & Hlo & Hhi & (Hnear & _) & Hq).
  apply near_reads; [done..|]. set (v := value x) in *. rewrite Hq.
  assert (Hd : (decimal M (X + 1 - n) - v == (inject_Z M - v * p10 (n - 1 - X)) * p10 (X + 1 - n))%Q).
  { unfold decimal. assert (He : (p10 (n - 1 - X) * p10 (X + 1 - n) == 1)%Q).
    { rewrite <- p10_add. by replace (n - 1 - X + (X + 1 - n)) with 0 by lia. }
    transitivity (inject_Z M * p10 (X + 1 - n) - v * (p10 (n - 1 - X) * p10 (X + 1 - n)))%Q; [rewrite He; ring|ring]. }
  rewrite Hd, Qabs_Qmult. pose proof (p10_pos (X + 1 - n)) as Hpp. rewrite (Qabs_pos (p10 (X + 1 - n))) by (by apply Qlt_le_weak).
  rewrite Qabs_Qminus in Hnear.
  assert (Hpx : (p10 X == p10 (X + 1 - n) * inject_Z (10 ^ (n - 1)))%Q).
  { rewrite <- (p10_Z (n - 1)) by lia. rewrite <- p10_add. by replace (X + 1 - n + (n - 1)) with X by lia. }
  assert (H2 : (inject_Z (2 ^ (prec F + 1)) == 2 * inject_Z (2 ^ prec F))%Q).
  { rewrite Z.add_comm, Z.pow_add_r, inject_Z_mult by lia. reflexivity. }
  rewrite H2. rewrite Zlt_Qlt in Hdig. rewrite Hpx in Hlo.
  set (a := Qabs (inject_Z M - v * p10 (n - 1 - X))) in *. set (t := p10 (X + 1 - n)) in *. set (T := inject_Z (10 ^ (n - 1))) in *.
  set (b := inject_Z (2 ^ prec F)) in *.
  assert (Hb : (0 < b)%Q).
  { unfold b. change 0%Q with (inject_Z 0). rewrite <- Zlt_Qlt. apply Z.pow_pos_nonneg; lia. }
  apply Qlt_le_trans with (t * T)%Q; [|done]. apply Qle_lt_trans with (t * b)%Q; [|by apply Qmult_lt_l].
  assert (Hat : (a * t <= (1 # 2) * t)%Q) by (apply Qmult_le_compat_r; [done|by apply Qlt_le_weak]).
  assert (H3 : (a * t * (2 * b) <= (1 # 2) * t * (2 * b))%Q) by (apply Qmult_le_compat_r; [done|lra]). lra.
Qed.
Lemma precise_text_reads u point n ds j s : ds <> [] -> all_digits ds -> precise_text u point n ds j s ->
  exists k e, number_text s k e /\ (decimal k e == decimal (numb ds) j)%Q.
Proof.
  intros Hne Hds. unfold precise_text. destruct (decide _).
  - intros ->. by apply fixed_text_reads.
  - apply scientific_text_reads; auto. lia.
Qed.
Lemma of_bits_valid I F m : kind_of I F -> finite_bits F m -> valid (of_bits F m).
Proof.
  intros [[-> ->]|[-> ->]] Hm; [by apply to_decimal_double_shortest|by apply to_decimal_float_shortest].
Qed.
Lemma enough_digits I F m n q : kind_of I F -> finite_bits F m -> (prec F = 53 -> 17 <= n) -> (prec F = 24 -> 9 <= n) ->
  rounded_to (value (of_bits F m)) n q -> reads_as q (of_bits F m).
Proof.
  intros HIF Hm Hd Hf Hr.
  assert (H : 2 <= prec F /\ 1 <= n /\ 2 ^ prec F < 10 ^ (n - 1)).
  { destruct HIF as [[-> ->]|[-> ->]]; cbn [prec binary64 binary32] in *.
    - specialize (Hd eq_refl). split; [lia|]. split; [lia|]. apply Z.lt_le_trans with (10 ^ 16); [done|]. apply Z.pow_le_mono_r; lia.
    - specialize (Hf eq_refl). split; [lia|]. split; [lia|]. apply Z.lt_le_trans with (10 ^ 8); [done|]. apply Z.pow_le_mono_r; lia. }
  destruct H as (H1 & H2 & H3). apply (rounded_reads F _ n q H1); try done; [by eapply of_bits_valid|by apply of_bits_pos].
Qed.
Lemma digits_numeral m ds : numeral 10 false m (digit_text ds) -> digits_of 10 m ds.
Proof.
  intros (ds' & Heq & H). assert (ds = ds') as ->; [|exact H]. clear H m. unfold digit_text in Heq.
  revert ds' Heq. induction ds as [|d ds IH]; intros [|d' ds'] Heq; try done. cbn in Heq. injection Heq as Hd Hr.
  f_equal; [|by apply IH]. unfold digit_char in Hd. destruct (decide (d < 10)), (decide (d' < 10)); lia.
Qed.
