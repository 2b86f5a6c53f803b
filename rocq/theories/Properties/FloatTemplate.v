(** Floating-point numbers as arguments of format strings (fmt/core.h, fmt/format.h): properties C138 to C141. *)
From Coq Require Import Strings.String QArith.
From Verif Require Import Base.Cpp Model.Numeric Model.FmtInt Model.Utf8 Model.Escape Model.Dragonbox Model.FloatLayout Model.FloatDigits Model.Format.
From Verif Require Import Spec.FloatSpec Spec.FloatText Spec.FloatRound Spec.FormatSpec Spec.Utf8Spec Spec.EscapeSpec Spec.FieldSpec Spec.TemplateSpec Spec.FloatField.
From Verif Require Import Proofs.FmtIntProofs Proofs.GroupingProofs Proofs.FormatWrite Proofs.FormatValue Proofs.FormatSafe Proofs.FormatParse Proofs.FloatSpecProofs Proofs.DragonboxProofs Proofs.FloatDigitsProofs Proofs.FloatLayoutProofs
  Proofs.FloatTextProofs Proofs.FloatPrecisionProofs Proofs.FloatFieldProofs Proofs.FloatWriteProofs Proofs.TemplateProofs Proofs.FloatLocal Proofs.FloatFormat Proofs.ShowsUnique.
From Verif Require Import Properties.Format Properties.FloatText Properties.FloatPrecision.
Local Open Scope Z_scope.
Local Notation p10 x := (Qpower (inject_Z 10) x).

(** ** The text in a field is that of FloatField *)
Lemma positive_value d b : 0 < float_magnitude d b < float_infinite d -> (0 < float_value d b)%Q.
Proof.
  intros Hm. assert (HIF := float_kind d).
  assert (Hfin : finite_bits (ieee_format d) (float_magnitude d b)) by (by destruct d).
  destruct (digits_cases _ _ _ (fspecs (float_info_of d) 0 General SNone false false) 1 HIF Hfin eq_refl ltac:(lia)) as (x & _ & Hlo & _).
  eapply Qlt_le_trans; [apply (p10_pos x)|exact Hlo].
Qed.
Lemma precision_given p : (forall n, p = Some n -> 0 <= n <= int_max) -> precision_or_6 (default (-1) p) = default 6 p.
Proof. intros Hp. unfold precision_or_6. destruct p as [n|]; cbn; [|done]. rewrite decide_True; [done|]. by apply Hp. Qed.

Lemma magnitude_written E f w p d b text : env_ok E -> scalar_ok (scalar_of d b) -> admits KFloat f -> 0 <= w <= int_max ->
  (forall n, p = Some n -> 0 <= n <= int_max) -> float_fits f p d b -> float_field_text E f w p d b text ->
  float_magnitude d b < float_infinite d -> f_local f = false ->
  exists t, magnitude_shows f p d b t /\ text = number_in_field f w (float_negative d b) t.
Proof.
  intros HE Hok Ha Hw Hp Hfits Htext Hfin Hloc. pose proof (float_scalar _ _ Hok) as Hb. pose proof (float_kind d) as HIF.
  unfold float_field_text in Htext. rewrite write_floats in Htext by done.
  set (I := float_info_of d) in *. set (F := ieee_format d) in *.
  assert (Hneg : negative I b = float_negative d b) by (by unfold I; destruct d).
  assert (Hmag : magnitude_of I b = float_magnitude d b) by (by unfold I; destruct d).
  assert (Hinf : infinite F = float_infinite d) by (by unfold F; destruct d).
  assert (Hw' : 0 <= w < 2 ^ 31) by (unfold int_max in Hw; lia).
  pose proof (precision_given p Hp) as HP.
  assert (Hm0 : 0 <= float_magnitude d b) by (apply Z.mod_pos_bound; by destruct d).
  assert (Hfin' : magnitude_of I b < infinite F) by (by rewrite Hmag, Hinf).
  set (v := float_value d b).
  assert (Hv : v = FloatSpec.value (of_bits F (magnitude_of I b))) by (by rewrite Hmag).
  assert (Hsign : (float_magnitude d b = 0 /\ (v == 0)%Q) \/ (finite_bits F (magnitude_of I b) /\ (0 < v)%Q)).
  { destruct (decide (float_magnitude d b = 0)) as [Hz|Hz]; [left|right].
    - split; [done|]. unfold v, float_value. rewrite Hz. by destruct d.
    - split; [split; rewrite Hmag; [lia|]; fold (infinite F); by rewrite Hinf|]. apply positive_value. lia. }
  assert (Hend : forall r t, r = Ok text -> r = Ok ([] ++ number_in_field f w (negative I b) t) -> magnitude_shows f p d b t ->
    exists t, magnitude_shows f p d b t /\ text = number_in_field f w (float_negative d b) t).
  { intros r t H1 H2 Ht. exists t. split; [done|]. rewrite H1, Hneg in H2. by injection H2. }
  assert (Hgeneral : forall u P, 0 <= P -> pres_for_field f = FGeneral u \/ (pres_for_field f = FNone /\ u = false /\ 0 <= default (-1) p) ->
    precision_or_6 (default (-1) p) = P -> (forall t, general_shows u (f_alternate f) (Z.max 1 P) v t -> magnitude_shows f p d b t) ->
    exists t, magnitude_shows f p d b t /\ text = number_in_field f w (float_negative d b) t).
  { intros u P HP0 Hpr HPP Hgen. destruct Hsign as [[Hz Hv0]|[Hfb Hv0]].
    - eapply Hend; [exact Htext|apply (C133_general_zero E (point E) I F [] b _ u f w _ RNone RNone HIF Hb (eq_trans Hmag Hz) Hw' Hloc Hpr)|].
      apply Hgen. cbv zeta. rewrite HPP. split_and!; [done|intros H; rewrite Hv0 in H; by apply Qlt_irrefl in H..].
    - destruct (f_alternate f) eqn:Halt.
      + destruct (C133_general_alternate_partial E (point E) I F [] b _ u f w _ RNone RNone HIF Hb Hfb Hw' Hloc Halt Hpr) as (ds & m & j & t & H1 & H2 & H3 & H4 & H5 & Hrun).
        cbv zeta in *. rewrite HPP, <- Hv in *. eapply Hend; [exact Htext|exact Hrun|]. apply Hgen. split_and!; [|done|].
        * intros H. rewrite H in Hv0. by apply Qlt_irrefl in Hv0.
        * intros _ _. exists ds, m, j. split_and!; done.
      + destruct (C133_general E (point E) I F [] b _ u f w _ RNone RNone HIF Hb Hfb Hw' Hloc Halt Hpr) as (ds & m & j & t & H1 & H2 & H3 & H4 & Hrun).
        cbv zeta in *. rewrite HPP, <- Hv in *. eapply Hend; [exact Htext|exact Hrun|]. apply Hgen. split_and!; [| |done].
        * intros H. rewrite H in Hv0. by apply Qlt_irrefl in Hv0.
        * intros _ _. exists ds, m, j. split_and!; done. }
  unfold float_fits in Hfits. specialize (Hfits Hfin).
  pose proof Ha as [Hty _]. unfold magnitude_shows in *. fold v in Hend, Hgeneral, Hfits |- *. unfold pres_for_field in Htext, Hgeneral.
  destruct (f_type f) as [[[| |[]|[]]| | | |[] u|]|]; try done.
  - (* f *)
    destruct (Qlt_le_dec v (p10 (767 - default 6 p))) as [Hlt|Hge].
    + destruct (C130_fixed E (point E) I F [] b u f w _ RNone RNone HIF Hb Hfin' Hw' Hloc ltac:(by rewrite <- Hv, HP)) as (m & t & H1 & H2 & Hrun).
      rewrite <- Hv, HP in *. eapply Hend; [exact Htext|exact Hrun|]. exists m. split; [done|]. split; [done|].
      exists m, (- default 6 p). split; [|done]. eapply decimals_reads; [|exact H2].
      apply (nearest_even_ge (v * p10 (default 6 p)) 0); [|done]. apply Qmult_le_0_compat; [|apply Qlt_le_weak, p10_pos].
      destruct Hsign as [[_ ->]|[_ H]]; [apply Qle_refl|by apply Qlt_le_weak].
    + destruct (C131_fixed_reads_partial E (point E) I F [] b u f w _ RNone RNone HIF Hb Hfin' Hw' Hloc ltac:(rewrite <- Hv, HP; exact Hfits))
        as (m & t & n & e & H1 & H2 & H3 & Hrun).
      rewrite <- Hv, HP in *. eapply Hend; [exact Htext|exact Hrun|]. exists m. split; [done|]. split; [|by exists n, e].
      intros H. exfalso. apply (Qlt_irrefl v). by eapply Qlt_le_trans.
  - (* e *)
    assert (Hpm : default (-1) p < max_int).
    { destruct p as [n|]; cbn; [|done]. specialize (Hp n eq_refl). assert (n <> int_max) by congruence. unfold int_max, max_int in *. lia. }
    destruct Hsign as [[Hz Hv0]|[Hfb Hv0]].
    + eapply Hend; [exact Htext|apply (C132_scientific_zero E (point E) I F [] b u f w _ RNone RNone HIF Hb (eq_trans Hmag Hz) Hw' Hpm Hloc)|].
      rewrite HP. split; [intros _; by destruct u|intros H; rewrite Hv0 in H; by apply Qlt_irrefl in H].
    + destruct (C132_scientific E (point E) I F [] b u f w _ RNone RNone HIF Hb Hfb Hw' Hpm Hloc) as (ds & m & j & t & H1 & H2 & H3 & H4 & Hrun).
      rewrite <- Hv, HP in *. eapply Hend; [exact Htext|exact Hrun|]. split.
      * intros H. rewrite H in Hv0. by apply Qlt_irrefl in Hv0.
      * intros _. exists ds, m, j. split_and!; done.
  - (* g *)
    apply (Hgeneral u (default 6 p)); [destruct p as [n|]; cbn; [by apply Hp|done]|by left|done|]. intros t Ht. destruct p; exact Ht.
  - (* a *)
    destruct (C136_hexadecimal E (point E) I F [] b u f w (default (-1) p) RNone RNone HIF Hb Hfin' Hw' Hloc) as (q & n & x & t & H1 & H2 & H3 & H4 & Hrun).
    rewrite <- Hv in *. eapply Hend; [exact Htext|exact Hrun|]. assert (Hhex : hex_shows u (f_alternate f) p v t).
    { exists q, n, x. split; [done|]. split; [done|]. destruct p as [k|]; cbn in H2, H3; [apply H2; by apply Hp|by apply H3]. }
    destruct p; exact Hhex.
  - (* no letter *)
    destruct p as [n|].
    + apply (Hgeneral false n); [by apply Hp|right; split_and!; [done|done|by apply Hp]|by rewrite HP|done].
    + destruct Hsign as [[Hz Hv0]|[Hfb Hv0]].
      * eapply Hend; [exact Htext|apply (C134_zero E (point E) I F [] b f w (-1) RNone RNone HIF Hb (eq_trans Hmag Hz) Hw' eq_refl Hloc)|].
        split; [done|]. intros H. change (0 < v)%Q in H. rewrite Hv0 in H. by apply Qlt_irrefl in H.
      * destruct (C134_shortest E (point E) I F [] b f w (-1) RNone RNone HIF Hb Hfb Hw' eq_refl Hloc) as (s & j & ds & t & H1 & H2 & H3 & Hrun).
        eapply Hend; [exact Htext|exact Hrun|]. split.
        -- intros H. change (v == 0)%Q in H. rewrite H in Hv0. by apply Qlt_irrefl in Hv0.
        -- intros _. exists s, j, ds. rewrite <- Hmag. split_and!; done.
Qed.

Lemma bare_inj f neg t t' : number_in_field (bare f) 0 neg t = number_in_field (bare f) 0 neg t' -> t = t'.
Proof.
  unfold number_in_field. change (zero_padded (bare f)) with false. cbv iota zeta. rewrite !in_field_none by lia. by intros H%app_inv_head.
Qed.
Lemma field_shows E f w p d b text : env_ok E -> (length (sep E) <= 1)%nat -> point E <> 0 -> scalar_ok (scalar_of d b) -> admits KFloat f -> 0 <= w <= int_max ->
  (forall n, p = Some n -> 0 <= n <= int_max) -> float_fits f p d b -> float_field_text E f w p d b text ->
  float_shows (Locale (sep E) (grouping E)) (point E) f w p d b text.
Proof.
  intros HE Hsep Hpt Hok Ha Hw Hp Hfits Htext. pose proof (float_scalar _ _ Hok) as Hb. pose proof (float_kind d) as HIF.
  assert (Hmag : magnitude_of (float_info_of d) b = float_magnitude d b) by (by destruct d).
  assert (Hneg : negative (float_info_of d) b = float_negative d b) by (by destruct d).
  assert (Hinf : infinite (ieee_format d) = float_infinite d) by (by destruct d).
  assert (Hw' : 0 <= w < 2 ^ 31) by (unfold int_max in Hw; lia).
  assert (Hadm : admits KFloat (bare f)).
  { destruct Ha as [Hty _]. split; [exact Hty|]. by cbn. }
  assert (Hp' : -1 <= default (-1) p <= max_int).
  { destruct p as [n|]; cbn; [|done]. specialize (Hp n eq_refl). unfold int_max, max_int in *. lia. }
  unfold float_shows. destruct (decide (float_magnitude d b < float_infinite d)) as [Hfin|Hno].
  - pose proof (proj1 (float_fits_refuses f p d b Ha Hp) Hfits) as Href. cbv zeta in Href.
    destruct (write_local E (point E) (float_info_of d) (ieee_format d) b (pres_for_field f) f w (default (-1) p) HIF HE Hsep Hpt Hb) as (t & t' & Hl & H1 & H2);
      [fold (magnitude_of (float_info_of d) b); fold (infinite (ieee_format d)); by rewrite Hmag, Hinf|done|done| |].
    { fold (magnitude_of (float_info_of d) b). rewrite Hmag. intros Hr. apply Href. split; [|done]. fold (infinite (ieee_format d)). by rewrite Hinf. }
    fold (negative (float_info_of d) b) in H1, H2. rewrite Hneg in H1, H2.
    assert (Hbare : float_field_text E (bare f) 0 p d b (number_in_field (bare f) 0 (float_negative d b) t)).
    { unfold float_field_text. rewrite write_floats by done. apply (H1 []). }
    destruct (magnitude_written E (bare f) 0 p d b _ HE Hok Hadm ltac:(unfold int_max; lia) Hp Hfits Hbare Hfin eq_refl) as (t0 & Ht0 & Heq).
    apply bare_inj in Heq as <-. exists t, t'. split; [exact Ht0|]. split.
    + assert (Hl' : f_local f && match pres_for_field f with FHex _ => false | _ => true end = float_local f).
      { unfold float_local, pres_for_field. destruct Ha as [Hty _]. by destruct (f_type f) as [[[| |[]|[]]| | | |[] u|]|]. }
      by rewrite Hl' in Hl.
    + unfold float_field_text in Htext. rewrite write_floats in Htext by done. rewrite H2 in Htext. by injection Htext.
  - unfold float_field_text in Htext. rewrite write_floats in Htext by done.
    pose proof (C135_nonfinite E (point E) (float_info_of d) (ieee_format d) [] b (pres_for_field f) f w (default (-1) p) RNone RNone HIF Hb ltac:(rewrite Hmag, Hinf; lia) Hw') as Hrun.
    cbv zeta in Hrun. rewrite Htext, Hneg, Hmag, Hinf in Hrun. injection Hrun as ->. cbn [app].
    replace (match pres_for_field f with FNone => false | FGeneral u | FExp u | FFixed u | FHex u => u end) with (float_upper f); [done|].
    unfold float_upper, pres_for_field. by destruct (f_type f) as [[| | | |[]|]|].
Qed.

(** The text without a field, and in one, in the locale of [E]. *)
Definition field_float_shows (E : env) : field -> Z -> option Z -> bool -> Z -> list Z -> Prop := float_shows (Locale (sep E) (grouping E)) (point E).
Definition plain_float_shows (E : env) : bool -> Z -> list Z -> Prop := field_float_shows E no_options 0 None.
Lemma no_options_admitted : admits KFloat no_options.
Proof. unfold admits. cbn. split_and!; done. Qed.
Lemma floats_specified E : env_ok E -> (length (sep E) <= 1)%nat -> point E <> 0 -> floats_shown E (plain_float_shows E) (field_float_shows E).
Proof.
  intros HE Hsep Hpt v d b Hv Hok. apply one_of_float in Hv as ->. split.
  - destruct (write_plain_float E d b HE Hok) as (text & H1 & Hf & H2). exists text. split; [|done].
    apply (field_shows E no_options 0 None d b text HE Hsep Hpt Hok no_options_admitted); [unfold int_max; lia|done|done|exact Hf].
  - intros f w p wr pr Ha Hw Hp. destruct (write_field_float E d b f w p HE Hok Ha Hw Hp) as [(Hf & text & H1 & H2)|[Hf H2]]; [left|right; eauto].
    split; [done|]. exists text. split; [by apply (field_shows E)|]. intros out. apply H2.
Qed.

(** ** C138: doubles and floats in format strings *)

(** The text of an item as TemplateSpec and FloatField say, with the locale of [E], UTF-8 columns and the debug texts of C112:
    nothing is left of what the code writes for floating-point numbers. *)
Definition specified (E : env) (A : args custom_value) : item -> list Z -> Prop :=
  item_shows (Locale (sep E) (grouping E)) columns (fun c t => write_escaped_char [] c = Ok t) (fun s t => write_escaped_string [] s = Ok t)
    (plain_float_shows E) (field_float_shows E) (args_of A).
(** A format string with arguments that fit, of which any may be a double or a float, by itself, in a sequence or joined:
    the text is that of the items, in order, and nothing else. *)
Theorem C138_format E A s ts : locale_ok E -> point E <> 0 -> arguments_ok A -> template_text ts s -> fitting A ts ->
  exists texts, Forall2 (specified E A) (index 0 ts) texts /\ vformat E A s = Ok (concat texts).
Proof.
  intros [HE Hsep] Hpt HA Ht Hf.
  destruct (vformat_cases E HE Hsep A (arguments_ok_args A HA) s _ _ (floats_specified E HE Hsep Hpt) ts Ht) as [(_ & _ & H)|[H _]]; [exact H|done].
Qed.
Print Assumptions C138_format.
(** One number in one field, written in any way. *)
Definition literal_width (f : field) : Z := match f_width f with Number n => n | _ => 0 end.
Definition literal_precision (f : field) : option Z := match f_precision f with Number n => Some n | _ => None end.
Definition literal (f : field) : Prop := (forall i, f_width f <> OfArg i) /\ (forall i, f_precision f <> OfArg i).
Lemma literal_index f : literal f -> index 0 [Show NextArg (Some f)] = [Show (ArgAt 0) (Some f)].
Proof.
  intros [Hnw Hnp]. destruct f as [fill al sg alt z w0 p0 l ty]. cbn in *.
  destruct w0 as [|?|i|]; [..|by destruct (Hnw i)|]; (destruct p0 as [|?|j|]; [..|by destruct (Hnp j)|]); reflexivity.
Qed.
Lemma literal_counts f A : literal f -> counts A (f_width f) (match f_width f with Number n => Some n | _ => None end) /\ counts A (f_precision f) (literal_precision f).
Proof.
  intros [Hnw Hnp]. unfold literal_precision. split; [destruct (f_width f) as [|?|i|]; [..|by destruct (Hnw i)|]|destruct (f_precision f) as [|?|i|]; [..|by destruct (Hnp i)|]]; constructor.
Qed.
Lemma one_argument d b : finds (args_of (Args [AScalar (scalar_of d b)] [])) (ArgAt 0) (One (OFloat d b)).
Proof. constructor; [done|by destruct d]. Qed.
Lemma one_fitting d b f : admits KFloat f -> literal f ->
  fitting (Args [AScalar (scalar_of d b)] []) [Show NextArg (Some f)] <-> float_fits f (literal_precision f) d b.
Proof.
  intros Ha Hl. set (A := Args [AScalar (scalar_of d b)] []). destruct (literal_counts f (args_of A) Hl) as [Hcw Hcp]. split.
  - intros [_ Hf]. rewrite (literal_index f Hl) in Hf. apply Forall_cons in Hf as [(v & Hv & Hfit) _].
    rewrite (finds_unique _ _ _ _ Hv (one_argument d b)) in Hfit. destruct Hfit as (_ & _ & Hfit). by apply (Hfit _ Hcp).
  - intros Hf. split.
    + left. destruct Hl as [Hnw Hnp]. unfold asked, asked_by, asked_by_count. cbn. constructor; [done|]. rewrite app_nil_r. apply Forall_app.
      split; [destruct (f_width f) as [|?|i|]; [apply Forall_nil_2..|by destruct (Hnw i)|apply Forall_nil_2]|destruct (f_precision f) as [|?|i|]; [apply Forall_nil_2..|by destruct (Hnp i)|apply Forall_nil_2]].
    + rewrite (literal_index f Hl). constructor; [|constructor]. exists (One (OFloat d b)). split; [apply one_argument|]. split; [done|]. split; [split; by eexists|].
      intros o Ho. by rewrite (counts_unique _ _ _ _ Ho Hcp).
Qed.
Theorem C138_one E d b f s : locale_ok E -> point E <> 0 -> scalar_ok (scalar_of d b) -> template_text [Show NextArg (Some f)] s ->
  admits KFloat f -> literal f -> float_fits f (literal_precision f) d b ->
  exists text, field_float_shows E f (literal_width f) (literal_precision f) d b text /\ vformat E (Args [AScalar (scalar_of d b)] []) s = Ok text.
Proof.
  intros HE Hpt Hok Ht Ha Hl Hfits. set (A := Args [AScalar (scalar_of d b)] []).
  assert (HA : arguments_ok A) by (by repeat constructor). destruct (literal_counts f (args_of A) Hl) as [Hcw Hcp].
  destruct (C138_format E A s _ HE Hpt HA Ht) as (texts & Htexts & ->); [by apply one_fitting|]. rewrite (literal_index f Hl) in Htexts.
  inversion Htexts as [|i text is texts' Hi Hnil]; subst i is texts. inversion Hnil; subst texts'.
  inversion Hi as [|w0 fo v text' Hv Hsh]; subst. rewrite (finds_unique _ _ _ _ Hv (one_argument d b)) in Hsh.
  inversion Hsh as [|v' f' wo po text' Hwo Hpo Hone'| | |]; subst. exists text. split; [|cbn; by rewrite app_nil_r].
  cbn in Hone'. rewrite (counts_unique _ _ _ _ Hpo Hcp), (counts_unique _ _ _ _ Hwo Hcw) in Hone'. unfold literal_width. by destruct (f_width f).
Qed.
Print Assumptions C138_one.
Definition third : Z := 0x3fd5555555555555.
Definition float_args : args custom_value :=
  Args [AScalar (VDouble third); AScalar (VFloat 0xc2f6e979); ACustom (CSeq TDouble [VDouble 0; VDouble (inf64 + 2 ^ 63)]); AScalar (VInt int32 9)] [].
Example C138_examples :
  vformat ex_env float_args (lit "{0:.3f} {0:+.2e} {0:g} {1:*>{3}.4} {1:a} {2}") = Ok (lit "0.333 +3.33e-01 0.333333 ***-123.5 -0x1.edd2f2p+6 [0, -inf]") /\
  vformat ex_env float_args (lit "{} {:#}") = Ok (lit "0.3333333333333333 -123.456") /\
  vformat ex_env float_args (lit "{0:d}") = Throw /\ vformat ex_env float_args (lit "{3:f}") = Throw /\ vformat ex_env float_args (lit "{0:.2147483647e}") = Throw.
Proof. vm_compute. split_and!; reflexivity. Qed.
(** A locale with groups of three, a dot between them and a comma for the point. *)
Definition german : env := Env (fun _ _ => true) [3] [46] 44.
Example C138_local :
  locale_ok german /\ point german <> 0 /\
  vformat german (Args [AScalar (VDouble 0x4132d687e6b74dce)] []) (lit "{0:L} {0:*>16.1Lf} {0:016.2Lf} {0:.3Le} {0:L.1a}") = Throw /\
  vformat german (Args [AScalar (VDouble 0x4132d687e6b74dce)] []) (lit "{0:L} {0:*>16.1Lf} {0:016.2Lf} {0:.3Le} {0:.1La}") =
    Ok (lit "1.234.567,901234496 *****1.234.567,9 00001.234.567,90 1,235e+06 0x1.3p+20").
Proof. split; [done|]. split; [done|]. split; vm_compute; reflexivity. Qed.
Example C138_hypotheses : locale_ok ex_env /\ arguments_ok float_args /\
  let f := Field [42] (Some PlRight) None false false (Number 9) (Number 4) false (Some (AsFloat StFixed false)) in
  scalar_ok (scalar_of true third) /\ template_text [Show NextArg (Some f)] (lit "{:*>9.4f}") /\ admits KFloat f /\ float_fits f (Some 4) true third.
Proof.
  split; [done|]. split.
  { repeat constructor; try done; vm_compute; done || (by right; right; left). }
  cbv zeta. split; [done|]. split; [|split].
  - apply (template_field NextArg [] _ (lit "*>9.4f") [] []); [done|constructor| | |constructor].
    + split; [|split_and!; done || (cbn; unfold int_max; lia)]. right. split; [done|]. exists 42, []. split_and!; done || lia.
    + refine (field_text_intro (Field [42] (Some PlRight) None false false (Number 9) (Number 4) false (Some (AsFloat StFixed false))) [57] (lit ".4") _ _).
      * constructor. by apply (one_digit 9).
      * apply (precision_some (Number 4) [52]); [done|]. constructor. by apply (one_digit 4).
  - unfold admits. cbn. split_and!; try done. by right; right.
  - intros _. cbn. intros x Hx Hlo _. exfalso. apply (Qlt_irrefl 1). eapply Qle_lt_trans; [|by apply (Qle_lt_trans _ _ 1 Hlo)].
    apply (p10_le 0 x Hx).
Qed.

(** ** C139: a field without options changes nothing *)
Lemma same_plain E v t t' : env_ok E -> (length (sep E) <= 1)%nat -> scalar_ok v -> plain_shows (float_plain_text E) (one_of v) t ->
  one_shows (Locale (sep E) (grouping E)) columns debug_char_text debug_string_text (float_field_text E) no_options 0 None (one_of v) t' -> t = t'.
Proof.
  intros HE Hsep Hv Ht Ht'.
  assert (Hk : TemplateSpec.kind_of (one_of v) <> KFloat \/ exists d b, one_of v = OFloat d b) by (destruct v as [[? []]| | | | | | |]; eauto).
  destruct Hk as [Hk|(d & b & Hd)].
  - apply (plain_of_field E HE Hsep (float_plain_text E) (float_field_text E) (floats_written E HE) v t' Hk Hv) in Ht'.
    eapply (plain_shows_unique (float_plain_text E)); [|exact Ht|exact Ht']. intros d b x y H H'. unfold float_plain_text in *. congruence.
  - rewrite Hd in *. apply one_of_float in Hd as ->. cbn in Ht, Ht'.
    destruct (write_plain_float E d b HE Hv) as (text & H1 & H2 & _). unfold float_plain_text, float_field_text in *. congruence.
Qed.
Theorem C139_no_options E A : locale_ok E -> arguments_ok A -> vformat E A (lit "{:}") = vformat E A (lit "{}").
Proof.
  intros HE HA. pose proof HE as [HEE Hsep].
  assert (Ht : template_text [Show NextArg None] (lit "{}")) by (apply (template_show NextArg [] [] []); constructor).
  assert (Ht' : template_text [Show NextArg (Some no_options)] (lit "{:}")).
  { apply (template_field NextArg [] no_options [] [] []); [done|constructor| | |constructor].
    - split; [by left|]. split; done.
    - apply (field_text_intro no_options [] []); constructor. }
  set (P := fun fo => exists v, finds (args_of A) (ArgAt 0) v /\ value_fits (args_of A) v fo).
  assert (Hfit : fitting A [Show NextArg None] <-> P None).
  { split; [intros [_ Hf]; by inversion Hf|]. intros H. split; [left; repeat constructor; done|]. by repeat constructor. }
  assert (Hfit' : fitting A [Show NextArg (Some no_options)] <-> P (Some no_options)).
  { split; [intros [_ Hf]; by inversion Hf|]. intros H. split; [left; repeat constructor; done|]. by repeat constructor. }
  assert (HP : P None <-> P (Some no_options)).
  { assert (Hc : counts_ok (args_of A) no_options) by (split; eexists; constructor).
    assert (Hadm : forall k, admits k no_options) by (intros k; unfold admits; destruct k; cbn; split_and!; done).
    assert (Hone : forall o, plain_fits o <-> one_fits (args_of A) no_options o).
    { intros [| | | | |a s|]; try done. cbn. split; [done|]. intros H Ha. by specialize (H Ha). }
    assert (Hall : forall l, Forall plain_fits l <-> Forall (one_fits (args_of A) no_options) l).
    { intros l. rewrite !Forall_forall. split; intros H o Ho; apply Hone; auto. }
    unfold P. split; intros (v & Hv & Hfv); exists v; (split; [done|]); destruct v as [o|k vs|k vs sep]; cbn in *.
    - split_and!; [done|done|by apply Hone].
    - by split.
    - split_and!; [done|done|by apply Hall].
    - destruct Hfv as (_ & _ & Hfv). by apply Hone.
    - by destruct Hfv.
    - destruct Hfv as (_ & _ & Hfv). by apply Hall. }
  destruct (format_cases E A _ _ HE HA Ht) as [(Hf & texts & Htexts & ->)|[Hf ->]], (format_cases E A _ _ HE HA Ht') as [(Hf' & texts' & Htexts' & ->)|[Hf' ->]];
    [|tauto..|done].
  cbn in Htexts, Htexts'. inversion Htexts as [|? t ? ? Hi Hnil]; subst. inversion Hnil; subst. inversion Htexts' as [|? t' ? ? Hi' Hnil']; subst. inversion Hnil'; subst.
  do 3 f_equal. inversion Hi as [|? ? v ? Hv Hs]; subst. inversion Hi' as [|? ? v' ? Hv' Hs']; subst. rewrite (finds_unique _ _ _ _ Hv' Hv) in Hs'.
  assert (Hok : match v with One o => exists x, o = one_of x /\ scalar_ok x | Sequence _ vs | Joined _ vs _ => exists xs, vs = one_of <$> xs /\ Forall scalar_ok xs end).
  { inversion Hv as [i ? Hi0 Hat|]; subst. cbn in Hat. apply list_lookup_fmap_inv in Hat as (a & -> & Ha).
    eapply Forall_lookup_1 in HA; [|exact Ha].
    assert (Hel : forall t vs, Forall (element_ok t) vs -> exists xs, one_of <$> vs = one_of <$> xs /\ Forall scalar_ok xs).
    { intros t0 vs Hvs. exists vs. split; [done|]. eapply Forall_impl; [exact Hvs|]. by intros ? []. }
    destruct a as [x|[j|t0 vs]]; cbn; [by exists x|by eapply Hel..]. }
  assert (Hpu : forall d b t t', float_plain_text E d b t -> float_plain_text E d b t' -> t = t') by (unfold float_plain_text; congruence).
  inversion Hs as [v1 t1 H1| |k vs fo texts H1|k vs sp texts H1|]; subst; inversion Hs' as [|v2 f w p t2 Hw Hp H2|k2 vs2 fo2 texts2 H2| |k2 vs2 sp2 f texts2 H2]; subst.
  - destruct Hok as (x & -> & Hx). inversion Hw; subst. inversion Hp; subst. symmetry. by apply (same_plain E x).
  - do 2 f_equal. f_equal. eapply Forall2_unique; [apply (plain_shows_unique _ Hpu)|exact H2|exact H1].
  - f_equal. destruct Hok as (xs & -> & Hx). clear -H1 H2 Hx HEE Hsep. revert texts texts2 H1 H2.
    induction Hx as [|x xs Hx Hxs IH]; intros texts texts2 H1 H2; inversion H1; subst; inversion H2; subst; [done|]. f_equal; [|by apply IH].
    destruct H4 as (w & p & Hw & Hp & Hone). inversion Hw; subst. inversion Hp; subst. symmetry. by apply (same_plain E x).
Qed.
Print Assumptions C139_no_options.
Example C139_example : locale_ok ex_env /\ arguments_ok float_args /\ vformat ex_env float_args (lit "{:}") = Ok (lit "0.3333333333333333").
Proof. split; [done|]. split; [apply C138_hypotheses|by vm_compute]. Qed.

(** ** C140: numbers and sequences of numbers that are written alike are alike *)

Lemma number_chars text n e : number_text text n e -> Forall (fun c => c <> 44) text /\ text <> [].
Proof.
  assert (Hd : forall ds, all_digits ds -> Forall (fun c => c <> 44) (digit_text ds)).
  { intros ds Hds. apply Forall_fmap. eapply Forall_impl; [exact Hds|]. intros d Hd. cbn in Hd. cbn -[digit_char]. rewrite digit_char_eq by done. lia. }
  assert (Hm : forall s n e, mantissa_text s n e -> Forall (fun c => c <> 44) s).
  { intros s n' e' [ds Hne Hds|ip fp Hne Hip Hfp]; [by apply Hd|]. rewrite !Forall_app. split_and!; [by apply Hd|by repeat constructor|by apply Hd]. }
  intros H. split.
  - destruct H as [s n e H|s n e c ds H Hc Hne Hds|s n e c ds H Hc Hne Hds]; [by eapply Hm|..]; rewrite !Forall_app; (split_and!; [by eapply Hm| |by apply Hd]);
      repeat constructor; lia.
  - destruct (number_text_head _ _ _ H) as (c & r & -> & _). done.
Qed.
Lemma plain_chars E d b t : scalar_ok (scalar_of d b) -> float_plain_text E d b t -> Forall (fun c => c <> 44) t /\ t <> [].
Proof.
  intros Hok Ht. apply float_scalar in Hok.
  assert (Hm : forall n text, Forall (fun c => c <> 44) text /\ text <> [] -> Forall (fun c => c <> 44) (minus_text n ++ text) /\ minus_text n ++ text <> []).
  { intros n text [H1 H2]. split; [apply Forall_app; split; [destruct n; repeat constructor; done|done]|]. intros H. by apply app_eq_nil in H as [_ ->]. }
  assert (Hl : forall x : bool, (Forall (fun c => c <> 44) (if x then [105; 110; 102] else [110; 97; 110]) /\ (if x then [105; 110; 102] else [110; 97; 110]) <> [])).
  { intros []; split; try done; repeat constructor; done. }
  unfold float_plain_text in Ht. destruct d; cbn in Ht, Hok.
  - destruct (Z.lt_trichotomy (b mod 2 ^ 63) 0) as [H|[H|H]]; [pose proof (Z.mod_pos_bound b (2 ^ 63)); lia|..].
    { rewrite (double_zero E [] b Hok H) in Ht. injection Ht as <-. apply Hm. split; [by repeat constructor|done]. }
    destruct (Z.lt_ge_cases (b mod 2 ^ 63) inf64) as [H'|H'].
    + destruct (double_finite E [] b Hok) as (_ & s & j & ds & text & _ & _ & _ & _ & Hw & n & e & Hn & _); [done|].
      rewrite Hw in Ht. injection Ht as <-. apply Hm. by eapply number_chars.
    + rewrite (double_nonfinite E [] b Hok H') in Ht. injection Ht as <-. apply Hm. destruct (decide _); [apply (Hl true)|apply (Hl false)].
  - destruct (Z.lt_trichotomy (b mod 2 ^ 31) 0) as [H|[H|H]]; [pose proof (Z.mod_pos_bound b (2 ^ 31)); lia|..].
    { rewrite (float_zero E [] b Hok H) in Ht. injection Ht as <-. apply Hm. split; [by repeat constructor|done]. }
    destruct (Z.lt_ge_cases (b mod 2 ^ 31) inf32) as [H'|H'].
    + destruct (float_finite E [] b Hok) as (_ & s & j & ds & text & _ & _ & _ & _ & Hw & n & e & Hn & _); [done|].
      rewrite Hw in Ht. injection Ht as <-. apply Hm. by eapply number_chars.
    + rewrite (float_nonfinite E [] b Hok H') in Ht. injection Ht as <-. apply Hm. destruct (decide _); [apply (Hl true)|apply (Hl false)].
Qed.
(** A number that is not a NaN. *)
Definition told (d : bool) (b : Z) : Prop := 0 <= b < 2 ^ float_bits d /\ float_magnitude d b <= float_infinite d.
Lemma told_scalar d b : told d b -> scalar_ok (scalar_of d b).
Proof. intros [H _]. by destruct d. Qed.
Lemma plain_inj E d a b t : told d a -> told d b -> float_plain_text E d a t -> float_plain_text E d b t -> a = b.
Proof.
  intros [Ha Ha'] [Hb Hb']. unfold float_plain_text. destruct d; cbn in *; [apply double_apart|apply float_apart]; done.
Qed.
Lemma sequence_floats E d l texts : Forall2 (fun v text => plain_shows (float_plain_text E) (one_of v) text) (scalar_of d <$> l) texts ->
  Forall (told d) l -> Forall2 (fun b text => told d b /\ float_plain_text E d b text) l texts.
Proof.
  intros H Hl. revert texts H. induction Hl as [|b l Hb Hl IH]; intros texts H; inversion H; subst; constructor; [|by apply IH]. split; [done|]. by destruct d.
Qed.
Theorem C140_sequences E d l l' : locale_ok E -> Forall (told d) l -> Forall (told d) l' ->
  vformat E (Args [ACustom (CSeq (if d then TDouble else TFloat) (scalar_of d <$> l))] []) (lit "{}")
  = vformat E (Args [ACustom (CSeq (if d then TDouble else TFloat) (scalar_of d <$> l'))] []) (lit "{}") -> l = l'.
Proof.
  intros HE Hl Hl'. assert (Hel : forall l, Forall (told d) l -> Forall (element_ok (if d then TDouble else TFloat)) (scalar_of d <$> l)).
  { intros l0 Hl0. apply Forall_fmap. eapply Forall_impl; [exact Hl0|]. intros b Hb. cbn. split; [by apply told_scalar|by destruct d]. }
  assert (Hnn : forall l, none_null (scalar_of d <$> l)) by (intros l0; apply none_null_fmap; by destruct d).
  destruct (C80_sequence E _ _ HE (Hel l Hl) (Hnn l)) as (texts & Hall & ->). destruct (C80_sequence E _ _ HE (Hel l' Hl') (Hnn l')) as (texts' & Hall' & ->).
  intros H. assert (Hs : separated (lit ", ") texts = separated (lit ", ") texts').
  { assert (H' := f_equal (fun r => match r with Ok x => x | _ => [] end) H). cbn beta iota in H'. apply app_inv_head in H'. by apply app_inv_tail in H'. }
  apply sequence_floats in Hall; [|done]. apply sequence_floats in Hall'; [|done].
  eapply separated_inj; [| |exact Hall|exact Hall'|exact Hs].
  - intros b text [Hb Ht]. eapply plain_chars; [by apply told_scalar|exact Ht].
  - intros a b text [Ha Ht] [Hb Ht']. by eapply plain_inj.
Qed.
Print Assumptions C140_sequences.
Lemma format_plain E d b : locale_ok E -> scalar_ok (scalar_of d b) ->
  exists text, float_plain_text E d b text /\ vformat E (Args [AScalar (scalar_of d b)] []) (lit "{}") = Ok text.
Proof.
  intros HE Hok. set (A := Args [AScalar (scalar_of d b)] []).
  assert (HA : arguments_ok A) by (by repeat constructor).
  assert (Ht : template_text [Show NextArg None] (lit "{}")) by (apply (template_show NextArg [] [] []); constructor).
  assert (Hf : finds (args_of A) (ArgAt 0) (One (OFloat d b))) by (constructor; [done|by destruct d]).
  destruct (C119_format E A _ _ HE HA Ht) as (texts & Htexts & Hout).
  { split; [left; repeat constructor; done|]. constructor; [|constructor]. eexists. split; [exact Hf|done]. }
  cbn in Htexts. inversion Htexts as [|i text is texts' Hi Hnil]; subst. inversion Hnil; subst. clear Htexts Hnil.
  inversion Hi as [|w fo v text' Hv Hshow]; subst. rewrite (finds_unique _ _ _ _ Hv Hf) in Hshow. inversion Hshow as [v1 t1 H1| | | |]; subst.
  exists text. split; [done|]. rewrite Hout. cbn [concat]. by rewrite app_nil_r.
Qed.
Theorem C140_numbers E d a b : locale_ok E -> told d a -> told d b ->
  vformat E (Args [AScalar (scalar_of d a)] []) (lit "{}") = vformat E (Args [AScalar (scalar_of d b)] []) (lit "{}") -> a = b.
Proof.
  intros HE Ha Hb. destruct (format_plain E d a HE (told_scalar _ _ Ha)) as (t & Ht & ->). destruct (format_plain E d b HE (told_scalar _ _ Hb)) as (t' & Ht' & ->).
  intros [= <-]. by eapply plain_inj.
Qed.
Print Assumptions C140_numbers.
Example C140_example : locale_ok ex_env /\ Forall (told true) [third; third + 1; 0; 2 ^ 63; inf64] /\
  vformat ex_env (Args [ACustom (CSeq TDouble (VDouble <$> [third; third + 1; 0; 2 ^ 63; inf64]))] []) (lit "{}")
  = Ok (lit "[0.3333333333333333, 0.33333333333333337, 0, -0, inf]").
Proof. split; [done|]. split; [repeat constructor; vm_compute; done|by vm_compute]. Qed.

(** ** C141: the precisions that are refused *)

Lemma decade_unique v x y : (p10 x <= v)%Q -> (v < p10 (x + 1))%Q -> (p10 y <= v)%Q -> (v < p10 (y + 1))%Q -> y = x.
Proof.
  intros H1 H2 H3 H4. destruct (Z.lt_trichotomy x y) as [H|[H|H]]; [|done|]; exfalso.
  - apply (Qlt_irrefl v). eapply Qlt_le_trans; [exact H2|]. eapply Qle_trans; [apply (p10_le (x + 1) y); lia|done].
  - apply (Qlt_irrefl v). eapply Qlt_le_trans; [exact H4|]. eapply Qle_trans; [apply (p10_le (y + 1) x); lia|done].
Qed.
Theorem C141_refused_iff E d b f s : locale_ok E -> scalar_ok (scalar_of d b) -> template_text [Show NextArg (Some f)] s ->
  admits KFloat f -> literal f ->
  let p := match f_precision f with Number n => n | _ => 6 end in
  vformat E (Args [AScalar (scalar_of d b)] []) s = Throw <->
  float_magnitude d b < float_infinite d /\
  match f_type f with
  | Some (AsFloat StScientific _) => p = int_max
  | Some (AsFloat StFixed _) => exists x, 0 <= x /\ (p10 x <= float_value d b)%Q /\ (float_value d b < p10 (x + 1))%Q /\ int_max < p + x + 1
  | _ => False
  end.
Proof.
  intros HE Hok Ht Ha Hl p. set (pp := literal_precision f).
  assert (Hpp : default 6 pp = p) by (unfold pp, literal_precision, p; by destruct (f_precision f)).
  assert (Hdec : float_fits f pp d b \/ (float_magnitude d b < float_infinite d /\
    match f_type f with
    | Some (AsFloat StScientific _) => p = int_max
    | Some (AsFloat StFixed _) => exists x, 0 <= x /\ (p10 x <= float_value d b)%Q /\ (float_value d b < p10 (x + 1))%Q /\ int_max < p + x + 1
    | _ => False
    end)).
  { unfold float_fits. destruct (Z.lt_ge_cases (float_magnitude d b) (float_infinite d)) as [Hm|Hm]; [|left; lia].
    destruct (f_type f) as [[| | | |st u|]|]; [by left|by left|by left|by left| |by left|by left]. destruct st; [| |by left..]; [|destruct (Z.eq_dec p int_max) as [->|Hne]; [by right|left; intros _ Hp; rewrite Hp in Hpp; cbn in Hpp; by subst]].
    - destruct (Qlt_le_dec (float_value d b) 1) as [Hlt|Hge].
      + left. intros _ x Hx Hlo _. exfalso. apply (Qlt_irrefl 1). eapply Qle_lt_trans; [|eapply Qle_lt_trans; [exact Hlo|exact Hlt]]. apply (p10_le 0 x Hx).
      + assert (Hm0 : 0 < float_magnitude d b).
        { assert (0 <= float_magnitude d b) by (apply Z.mod_pos_bound; by destruct d).
          destruct (Z.eq_dec (float_magnitude d b) 0) as [H0|]; [|lia]. exfalso. unfold float_value in Hge. rewrite H0 in Hge. revert Hge. by destruct d. }
        assert (Hfin : finite_bits (ieee_format d) (float_magnitude d b)) by (by destruct d).
        destruct (digits_cases _ _ _ (fspecs (float_info_of d) 0 General SNone false false) 1 (float_kind d) Hfin eq_refl ltac:(lia)) as (x & _ & Hlo & Hhi & _).
        fold (float_value d b) in Hlo, Hhi.
        assert (Hx : 0 <= x).
        { destruct (Z.lt_ge_cases x 0) as [Hx|]; [|lia]. exfalso. apply (Qlt_irrefl 1). eapply Qle_lt_trans; [exact Hge|]. eapply Qlt_le_trans; [exact Hhi|].
          apply (p10_le (x + 1) 0). lia. }
        destruct (Z.lt_ge_cases int_max (p + x + 1)) as [Hbig|Hbig]; [right; eauto 6|left].
        intros _ y Hy Hlo' Hhi'. rewrite Hpp. enough (y = x) by lia. by apply (decade_unique (float_value d b)). }
  assert (HA : arguments_ok (Args [AScalar (scalar_of d b)] [])) by (by repeat constructor).
  rewrite (C121_rejects_iff E _ s [Show NextArg (Some f)] HE HA Ht), (one_fitting d b f Ha Hl). fold pp. split.
  - intros Hth. destruct Hdec as [Hfit|H]; [done|exact H].
  - intros [Hm Hbad] Hfit. specialize (Hfit Hm). destruct (f_type f) as [[| | | |st u|]|]; try done. destruct st; try done.
    + destruct Hbad as (x & Hx & Hlo & Hhi & Hbig). specialize (Hfit x Hx Hlo Hhi). rewrite Hpp in Hfit. lia.
    + unfold pp, literal_precision, p in *. destruct Hl as [_ Hnp]. destruct (f_precision f) as [|n|j|]; [done| |by destruct (Hnp j)|done]. by subst.
Qed.
Print Assumptions C141_refused_iff.
Example C141_examples :
  vformat ex_env (Args [AScalar (VDouble third)] []) (lit "{:.2147483647e}") = Throw /\
  vformat ex_env (Args [AScalar (VDouble 0x408f400000000000)] []) (lit "{:.2147483644f}") = Throw /\
  (p10 3 <= float_value true 0x408f400000000000)%Q /\ (float_value true 0x408f400000000000 < p10 4)%Q /\ int_max < 2147483644 + 3 + 1.
Proof. split_and!; vm_compute; done || reflexivity. Qed.
Example C141_hypotheses :
  let f := Field [] None None false false NoCount (Number 2147483644) false (Some (AsFloat StFixed false)) in
  template_text [Show NextArg (Some f)] (lit "{:.2147483644f}") /\ admits KFloat f.
Proof.
  cbv zeta. split.
  - apply (template_field NextArg [] _ (lit ".2147483644f") [] []); [done|constructor| | |constructor].
    + split; [by left|]. split; [done|]. split; [|done]. cbn. unfold int_max. lia.
    + refine (field_text_intro (Field [] None None false false NoCount (Number 2147483644) false (Some (AsFloat StFixed false))) [] (lit ".2147483644") _ _); [constructor|].
      apply (precision_some (Number 2147483644) (lit "2147483644")); [done|]. constructor. exists [2;1;4;7;4;8;3;6;4;4]. split_and!; try done. repeat constructor; lia.
  - unfold admits. cbn. split_and!; try done. by right; right.
Qed.
