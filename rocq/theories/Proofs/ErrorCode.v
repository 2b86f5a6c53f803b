(** The proofs about the error messages (Model/ErrorCode.v). *)
From Coq Require Import Strings.String.
From Verif Require Import Base.Cpp Model.Numeric Model.FmtInt Model.Dragonbox Model.FormatSpecs Model.Format Model.Print Model.ErrorCode.
From Verif Require Import Spec.FormatSpec Proofs.FmtIntProofs Proofs.FormatValue.
Local Open Scope Z_scope.
Set Default Proof Using "Type".

Lemma decimal_length z s c : decimal z s -> ndigits 10 (Z.abs z) c -> Z.of_nat (length s) = (if decide (z < 0) then 1 else 0) + c.
Proof.
  intros (ds & (l & -> & Hl) & ->) Hc. apply digits_of_ndigits in Hl; [|lia]. rewrite app_length, fmap_length.
  rewrite (ndigits_unique 10 (Z.abs z) c (Z.of_nat (length l))) by (done || lia). case_decide; cbn [length]; lia.
Qed.
Lemma first_field E a b out o : write_value_default E out a = Ok o ->
  parse_replacement_field seq_custom E (Args [AScalar a; AScalar b] []) (lit "{}{}") 0 0 out = Ok (2%nat, 1, o).
Proof. intros H. transitivity (let* o := write_value_default E out a in Ok (2%nat, 1, o)); [reflexivity|by rewrite H]. Qed.
Lemma second_field E a b out o : write_value_default E out b = Ok o ->
  parse_replacement_field seq_custom E (Args [AScalar a; AScalar b] []) (lit "{}{}") 2 1 out = Ok (4%nat, 2, o).
Proof. intros H. transitivity (let* o := write_value_default E out b in Ok (4%nat, 2, o)); [reflexivity|by rewrite H]. Qed.
Lemma loop_inl {S R} n (step : S -> res (S + R)) s s' : step s = Ok (inl s') -> loop (Datatypes.S n) step s = loop n step s'.
Proof. intros H. cbn. by rewrite H. Qed.
Lemma loop_inr {S R} n (step : S -> res (S + R)) s r : step s = Ok (inr r) -> loop (Datatypes.S n) step s = Ok r.
Proof. intros H. cbn. by rewrite H. Qed.
Lemma two_fields E a b o o' : write_value_default E [] a = Ok o -> write_value_default E o b = Ok o' ->
  vformat E (Args [AScalar a; AScalar b] []) (lit "{}{}") = Ok o'.
Proof.
  intros Ha Hb. pose proof (first_field E a b [] o Ha) as H1. pose proof (second_field E a b o o' Hb) as H2.
  unfold vformat, vformat_to. rewrite decide_False by done. unfold parse_format_string, scan_string. rewrite decide_True by (cbn; lia).
  revert H1 H2. generalize (parse_replacement_field seq_custom E (Args [AScalar a; AScalar b] []) (lit "{}{}")). intros field H1 H2.
  unfold scan_short. change (S (length (lit "{}{}"))) with 5%nat.
  rewrite (loop_inl 4 _ _ (2%nat, 2%nat, 1, o)).
  2:{ transitivity (let* (p, next, out) := field 0%nat 0 [] in Ok (inl (B := nat * list Z) (p, p, next, out))); [reflexivity|by rewrite H1]. }
  rewrite (loop_inl 3 _ _ (4%nat, 4%nat, 2, o')).
  2:{ transitivity (let* (p, next, out) := field 2%nat 1 (o ++ []) in Ok (inl (B := nat * list Z) (p, p, next, out))); [reflexivity|by rewrite app_nil_r, H2]. }
  rewrite (loop_inr 2 _ _ (4%nat, o')) by reflexivity. cbn [bind].
  transitivity (Ok (o' ++ [])); [reflexivity|by rewrite app_nil_r].
Qed.
Lemma message_text E out message :
  format_to E out (lit "{}{}") (Args [AScalar (VStr message); AScalar (VCstr some_address SEP)] []) = Ok (out ++ message ++ lit ": ").
Proof. unfold format_to. by rewrite (two_fields E _ _ message (message ++ lit ": ")). Qed.
Lemma code_text E out z s : (forall out, write_value_default E out (VInt int32 z) = Ok (out ++ s)) ->
  format_to E out (lit "{}{}") (Args [AScalar (VCstr some_address ERROR_STR); AScalar (VInt int32 z)] []) = Ok (out ++ lit "error " ++ s).
Proof. intros H. unfold format_to. by rewrite (two_fields E _ _ (lit "error ") (lit "error " ++ s)). Qed.
Lemma int32_range z : in_range int32 z = true -> - 2 ^ 31 <= z < 2 ^ 31.
Proof. unfold in_range. cbn. lia. Qed.
Lemma format_error_code_ok E out z message : in_range int32 z = true -> exists s, decimal z s /\ (length s <= 11)%nat /\
  format_error_code E out z message = Ok (if decide (length message + 8 + length s <= 500)%nat then message ++ lit ": error " ++ s else lit "error " ++ s).
Proof.
  intros Hz. assert (Ht : int_type int32) by (unfold int_type; cbn; lia). pose proof (int32_range z Hz) as Hr.
  destruct (write_default_value_ok E int32 z Ht Hz) as (s & Hs & Hout). exists s. split; [done|].
  destruct (count_digits_ok 32 (Z.abs z)) as (c & Hc & Hn); [by left|lia|].
  pose proof (decimal_length z s c Hs Hn) as Hl.
  assert (Hc10 : c <= 10).
  { destruct Hn as (_ & _ & [->|Hp]); [lia|]. destruct (decide (c <= 10)); [done|]. assert (10 ^ 10 <= 10 ^ (c - 1)) by (apply Z.pow_le_mono_r; lia). lia. }
  assert (Hc1 : 1 <= c) by apply Hn.
  split; [case_decide; lia|]. unfold format_error_code.
  assert (Hneg : is_negative int32 z = bool_decide (z < 0)) by (unfold is_negative; cbn; case_bool_decide; lia).
  assert (Habs : (if is_negative int32 z then ((0 - z mod 2 ^ 32) mod 2 ^ 32, Z.of_nat (length SEP) + Z.of_nat (length ERROR_STR) - 2 + 1)
    else (z mod 2 ^ 32, Z.of_nat (length SEP) + Z.of_nat (length ERROR_STR) - 2)) = (Z.abs z, 8 + (if decide (z < 0) then 1 else 0))).
  { rewrite Hneg. case_bool_decide; [rewrite decide_True by done|rewrite decide_False by done]; f_equal; try reflexivity.
    - rewrite Zminus_mod_idemp_r. rewrite Z.mod_small; lia.
    - rewrite Z.mod_small; lia. }
  rewrite Habs. rewrite Hc. cbn [bind].
  replace (8 + (if decide (z < 0) then 1 else 0) + c) with (8 + Z.of_nat (length s)) by (rewrite Hl; lia).
  assert (Hs11 : Z.of_nat (length s) <= 11) by (rewrite Hl; case_decide; lia).
  rewrite (Z.mod_small (8 + _)) by lia. rewrite Z.mod_small by (unfold inline_buffer_size; lia).
  unfold inline_buffer_size. rewrite firstn_O.
  assert (Hl2 : length (lit ": ") = 2%nat) by done. assert (Hl6 : length (lit "error ") = 6%nat) by done.
  destruct (decide (length message + 8 + length s <= 500)%nat) as [Hm|Hm].
  - rewrite (proj2 (Z.leb_le _ _)) by lia. rewrite message_text. cbn [bind]. rewrite (code_text E _ z s Hout). cbn [bind app].
    unfold asserted. rewrite !app_length, Hl2, Hl6. rewrite (proj2 (Z.leb_le _ _)) by lia. f_equal. by rewrite <- app_assoc.
  - rewrite (proj2 (Z.leb_gt _ _)) by lia. cbn [bind]. rewrite (code_text E _ z s Hout). cbn [bind app].
    unfold asserted. rewrite (proj2 (Z.leb_le _ _)); [done|]. change (Z.of_nat (length (lit "error " ++ s)) <= 500). rewrite app_length, Hl6. lia.
Qed.
