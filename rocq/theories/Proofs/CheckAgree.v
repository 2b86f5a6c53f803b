(** What passes the check of a format string, against what is formatted. *)
From Coq Require Import QArith.
From Verif Require Import Base.Cpp Base.Mem Model.Numeric Model.Format Model.FormatCheck.
From Verif Require Import Spec.FormatSpec Spec.FieldSpec Spec.TemplateSpec Spec.CheckSpec Spec.FloatSpec Spec.FloatText Spec.FloatField.
From Verif Require Import Proofs.FloatSpecProofs Proofs.FloatPrecisionProofs Proofs.FloatRoundTrip Proofs.DragonboxProofs Proofs.FormatParse Proofs.TemplateProofs Proofs.CheckProofs.
Set Default Proof Using "Type".
Local Open Scope Z_scope.
Ltac Zify.zify_post_hook ::= idtac.

Lemma finds_at_iff A i v : finds A (ArgAt i) v <-> 0 <= i /\ a_values A !! Z.to_nat i = Some v.
Proof. split; [by inversion 1|]. intros []. by constructor. Qed.
Lemma first_unique {X} (l : list (list Z * X)) n k k' i i' : l !! k = Some (n, i) -> (forall j x, (j < k)%nat -> l !! j <> Some (n, x)) ->
  l !! k' = Some (n, i') -> (forall j x, (j < k')%nat -> l !! j <> Some (n, x)) -> i = i'.
Proof.
  intros H H0 H' H0'. destruct (decide (k < k')%nat) as [?|?]; [by destruct (H0' k i)|].
  destruct (decide (k' < k)%nat) as [?|?]; [by destruct (H0 k' i')|]. assert (k = k') as -> by lia. congruence.
Qed.
Lemma finds_unique A w v v' : finds A w v -> finds A w v' -> v = v'.
Proof.
  intros H H'. inversion H as [i x ? Hx|n k i x Hk Hf Hi]; subst; inversion H' as [i' x' ? Hx'|n' k' i' x' Hk' Hf' Hi']; subst.
  - congruence.
  - pose proof (first_unique _ _ _ _ _ _ Hk Hf Hk' Hf') as ->. apply finds_at_iff in Hi as [_ Hi], Hi' as [_ Hi']. congruence.
Qed.

Section agree.
  Context (A : arguments) (S : signature) (HS : has_signature A S).

  Lemma finds_type_iff w t : finds_type S w t <-> exists v, finds A w v /\ t = type_of_value v.
  Proof using HS.
    destruct HS as [Ht Hn].
    assert (Hat : forall i t, finds_type S (ArgAt i) t <-> exists v, finds A (ArgAt i) v /\ t = type_of_value v).
    { intros i u. split.
      - inversion 1 as [? ? Hi Hu|]; subst. rewrite <- Ht, list_lookup_fmap in Hu. destruct (a_values A !! Z.to_nat i) as [v|] eqn:E; [|done].
        injection Hu as <-. exists v. split; [|done]. by constructor.
      - intros (v & Hv & ->). apply finds_at_iff in Hv as [Hi Hv]. constructor; [done|]. by rewrite <- Ht, list_lookup_fmap, Hv. }
    destruct w as [|i|n]; [|by apply Hat|].
    - split; [by inversion 1|]. intros (v & Hv & _). by inversion Hv.
    - split.
      + inversion 1 as [|? k i ? Hk Hf Hi]; subst. apply Hat in Hi as (v & Hv & ->). exists v. split; [|done].
        rewrite <- Hn in *. by apply (finds_named A n k i v).
      + intros (v & Hv & ->). inversion Hv as [|? k i ? Hk Hf Hi]; subst. apply (finds_type_named S n k i); rewrite <- ?Hn; [done..|]. apply Hat. eauto.
  Qed.

  (** What is left to the time of formatting: the widths and precisions that arguments give, the precisions that
      floating-point numbers can have, and that C strings are not null. *)
  Definition item_counted (i : item) : Prop :=
    match i with
    | Text _ => True
    | Show w fo => forall v, finds A w v ->
        match v, fo with
        | One v, Some f => counts_ok A f /\ one_fits A f v
        | One v, None => plain_fits v
        | Sequence _ vs, _ => Forall plain_fits vs
        | Joined _ vs _, Some f => (vs <> [] -> counts_ok A f) /\ Forall (one_fits A f) vs
        | Joined _ vs _, None => Forall plain_fits vs
        end
    end.

  Lemma checked_fits_iff i : item_checks S i -> item_fits A i <-> item_counted i.
  Proof using HS.
    destruct i as [c|w [f|]]; cbn; [done| |].
    - intros (t & Ht & Hc). apply finds_type_iff in Ht as (v & Hv & ->). split.
      + intros (v' & Hv' & Hfit) u Hu. pose proof (finds_unique _ _ _ _ Hv' Hu) as ->. destruct u as [u|k vs|k vs sep]; cbn in *; naive_solver.
      + intros H. exists v. split; [done|]. specialize (H v Hv). destruct v as [v|k vs|k vs sep]; cbn in *; naive_solver.
    - intros (t & Ht & _). apply finds_type_iff in Ht as (v & Hv & ->). split.
      + intros (v' & Hv' & Hfit) u Hu. pose proof (finds_unique _ _ _ _ Hv' Hu) as ->. by destruct u.
      + intros H. exists v. split; [done|]. specialize (H v Hv). by destruct v.
  Qed.

  Lemma counts_checks c o : counts A c o -> count_checks S c.
  Proof using HS.
    destruct 1 as [| | |w sg z Hw Hz]; cbn; try done. destruct w as [|i|n]; [by inversion Hw| |done].
    exists (TOne (TemplateSpec.kind_of (OInt sg z))). split; [apply finds_type_iff; eauto|]. destruct sg; unfold counting; cbn; auto.
  Qed.
  (** No argument is an empty join. *)
  Definition no_empty_join : Prop := forall k sep, Joined k [] sep ∉ a_values A.
  Lemma fits_checks i : no_empty_join -> item_fits A i -> item_checks S i.
  Proof using HS.
    intros Hne. destruct i as [c|w fo]; cbn; [done|]. intros (v & Hv & Hfit). exists (type_of_value v). split; [apply finds_type_iff; eauto|].
    destruct fo as [f|]; [|done]. assert (Hc : counts_ok A f -> count_checks S (f_width f) /\ count_checks S (f_precision f)).
    { intros [[w' Hw] [p Hp]]. split; by eapply counts_checks. }
    destruct v as [v|k vs|k vs sep]; cbn in *; [naive_solver|by destruct Hfit|]. destruct Hfit as (Had & Hok & _). split; [done|]. apply Hc, Hok.
    intros ->. apply (Hne k sep). inversion Hv as [? ? ? Hi|? ? ? ? ? ? Hi]; subst; [by eapply elem_of_list_lookup_2|].
    apply finds_at_iff in Hi as [_ Hi]. by eapply elem_of_list_lookup_2.
  Qed.
End agree.

(** ** The precisions of floating-point numbers *)
Lemma float_value_most d b : float_magnitude d b < float_infinite d -> (float_value d b < p10 400)%Q.
Proof.
  intros H. unfold float_value, FloatSpec.value. set (x := of_bits _ _).
  assert (Hpos : 0 <= float_magnitude d b) by (unfold float_magnitude; apply Z.mod_pos_bound; by destruct d).
  assert (Hx : 0 <= significand x < 2 ^ 53 /\ exponent x <= 971).
  { unfold x, of_bits, ieee_format, float_infinite, inf64, inf32 in *. destruct d.
    - assert (0 <= float_magnitude true b mod 2 ^ (prec binary64 - 1) < 2 ^ 52) by (by apply Z.mod_pos_bound).
      assert (float_magnitude true b / 2 ^ (prec binary64 - 1) < 2047) by (apply Z.div_lt_upper_bound; [done|]; change (2 ^ (prec binary64 - 1)) with 4503599627370496; lia).
      change (emin binary64) with (-1074). change (prec binary64 - 1) with 52 in *. change (2 ^ 52) with 4503599627370496 in *. change (2 ^ 53) with 9007199254740992.
      destruct (Z.eqb_spec (float_magnitude true b / 4503599627370496) 0); cbn [significand exponent]; lia.
    - assert (0 <= float_magnitude false b mod 2 ^ (prec binary32 - 1) < 2 ^ 23) by (by apply Z.mod_pos_bound).
      assert (float_magnitude false b / 2 ^ (prec binary32 - 1) < 255) by (apply Z.div_lt_upper_bound; [done|]; change (2 ^ (prec binary32 - 1)) with 8388608; lia).
      change (emin binary32) with (-149). change (prec binary32 - 1) with 23 in *. change (2 ^ 23) with 8388608 in *. change (2 ^ 53) with 9007199254740992.
      destruct (Z.eqb_spec (float_magnitude false b / 8388608) 0); cbn [significand exponent]; lia. }
  destruct Hx as [Hs He]. apply Qle_lt_trans with (inject_Z (2 ^ 53) * p2 971)%Q; [|by vm_compute].
  replace 971 with (exponent x + (971 - exponent x)) by lia. rewrite p2_add, (p2_Z (971 - exponent x)) by lia.
  setoid_replace (inject_Z (2 ^ 53) * (p2 (exponent x) * inject_Z (2 ^ (971 - exponent x))))%Q
    with (inject_Z (2 ^ 53 * 2 ^ (971 - exponent x)) * p2 (exponent x))%Q by (rewrite inject_Z_mult; ring).
  apply Qmult_le_compat_r; [|apply Qlt_le_weak, p2_pos]. rewrite <- Zle_Qle.
  pose proof (Z.pow_pos_nonneg 2 (971 - exponent x) ltac:(lia) ltac:(lia)). nia.
Qed.
Lemma float_fits_small f p d b : default 6 p <= 2 ^ 30 -> float_fits f p d b.
Proof.
  intros Hp Hfin. pose proof (float_value_most d b Hfin) as Hmost. assert (Hm : int_max = 2 ^ 31 - 1) by done.
  destruct (f_type f) as [[?| | | |[] ?|]|]; try done.
  - intros x Hx Hle _. destruct (decide (x < 400)) as [?|Hge]; [lia|].
    destruct (Qlt_not_le _ _ Hmost). eapply Qle_trans; [|exact Hle]. apply p10_le. lia.
  - intros ->. cbn in Hp. lia.
Qed.
