(** Floating-point numbers in format fields: what is written, and when a precision is refused. *)
From Coq Require Import ZArith List Lia QArith.
From stdpp Require Import prelude.
From Verif Require Import Base.Cpp Model.Numeric Model.FmtInt Model.FormatSpecs Model.Escape Model.Dragonbox Model.FloatLayout Model.FloatDigits Model.Format
  Spec.FieldSpec Spec.TemplateSpec Proofs.FmtIntProofs Proofs.GroupingProofs Proofs.FormatValue Proofs.FloatPrecisionProofs Proofs.FloatFieldProofs Proofs.FloatWriteProofs Proofs.FormatSafe
  Proofs.FormatParse Proofs.TemplateProofs.
From Verif Require Import Spec.FloatField.
From Verif Require Spec.FloatSpec.
Ltac Zify.zify_post_hook ::= idtac.
Set Default Proof Using "Type".
Local Open Scope Z_scope.

Definition float_info_of (double : bool) : float_info := if double then float_info_double else float_info_float.
Definition scalar_of (double : bool) (bits : Z) : scalar := if double then VDouble bits else VFloat bits.
Lemma one_of_float v d b : one_of v = OFloat d b -> v = scalar_of d b.
Proof. destruct v; cbn; try done; by intros [= <- <-]. Qed.

(** The letter of a field, as the code has it. *)
Definition pres_for_field (f : field) : float_pres :=
  match f_type f with
  | Some (AsFloat StFixed u) => FFixed u | Some (AsFloat StScientific u) => FExp u
  | Some (AsFloat StGeneral u) => FGeneral u | Some (AsFloat StHex u) => FHex u | _ => FNone end.
Lemma write_floats E d b out f w p wr pr : admits KFloat f ->
  write_value E out (scalar_of d b) (specs_of f w p wr pr) = write_float_specs E (point E) (float_info_of d) out b (pres_for_field f) (specs_of f w p wr pr).
Proof.
  intros [Hty _]. unfold scalar_of, float_info_of, pres_for_field.
  destruct d; cbn [write_value]; unfold write_floating; cbn [typ specs_of]; by destruct (f_type f) as [[[| |[]|[]]| | | |[] []|]|].
Qed.
Lemma refs_apart E pt I out b pr f w p wr pc : write_float_specs E pt I out b pr (specs_of f w p wr pc) = write_float_specs E pt I out b pr (specs_of f w p RNone RNone).
Proof.
  unfold write_float_specs. destruct (decide (Z.land _ _ = _)).
  { unfold write_nonfinite. cbn [fill specs_of]. by destruct (decide (fill_text f = [48])). }
  cbn [al sgn width specs_of]. destruct (decide (al_of f = ANumeric /\ _)); [|reflexivity]. destruct (decide (w <> 0)); reflexivity.
Qed.

Lemma float_scalar d b : scalar_ok (scalar_of d b) -> 0 <= b < 2 ^ carrier_bits (float_info_of d).
Proof. by destruct d. Qed.
Lemma float_kind d : kind_of (float_info_of d) (ieee_format d).
Proof. destruct d; [by left|by right]. Qed.
Lemma float_fits_refuses f p d b : admits KFloat f -> (forall n, p = Some n -> 0 <= n <= int_max) ->
  let F := ieee_format d in
  float_fits f p d b <-> ~ (float_magnitude d b < (FloatSpec.emax F - FloatSpec.emin F + 2) * 2 ^ (FloatSpec.prec F - 1) /\
    refuses F (float_magnitude d b) (pres_for_field f) (default (-1) p)).
Proof.
  intros [Hty _] Hp F. unfold float_fits, pres_for_field.
  replace (float_infinite d) with ((FloatSpec.emax F - FloatSpec.emin F + 2) * 2 ^ (FloatSpec.prec F - 1)) by (by destruct d).
  assert (Hg : default 6 p = given (default (-1) p)).
  { unfold given. destruct p as [n|]; cbn; [|done]. rewrite decide_True; [done|]. by apply Hp. }
  destruct (f_type f) as [[[| |[]|[]]| | | |[] u|]|]; cbn [refuses]; try tauto.
  - unfold too_many. fold (float_value d b). rewrite Hg. split.
    + intros H [Hf (x & Hx & Hlo & Hhi & Hbig)]. specialize (H Hf x Hx Hlo Hhi). unfold int_max, max_int in *. lia.
    + intros H Hf x Hx Hlo Hhi. destruct (decide (given (default (-1) p) + x + 1 <= int_max)) as [|Hbig]; [done|]. destruct H. split; [done|].
      exists x. split_and!; [done..|]. unfold int_max, max_int in *. lia.
  - change int_max with max_int. split.
    + intros H [Hf Hq]. apply (H Hf). destruct p as [n|]; [by rewrite <- Hq|done].
    + intros H Hf ->. by apply H.
Qed.

(** What the code writes, as a relation. *)
Definition float_field_text (E : env) (f : field) (w : Z) (p : option Z) (double : bool) (bits : Z) (text : list Z) : Prop :=
  write_value E [] (scalar_of double bits) (specs_of f w (default (-1) p) RNone RNone) = Ok text.
Definition float_plain_text (E : env) (double : bool) (bits : Z) (text : list Z) : Prop := write_value_default E [] (scalar_of double bits) = Ok text.

Lemma plain_same E d b out : scalar_ok (scalar_of d b) ->
  write_value_default E out (scalar_of d b) = write_float_specs E (point E) (float_info_of d) out b FNone default_specs.
Proof. intros Hb. apply float_scalar in Hb. destruct d; cbn [scalar_of write_value_default]; [by apply double_same|by apply float_same]. Qed.

Lemma write_plain_float E d b : env_ok E -> scalar_ok (scalar_of d b) -> exists text, float_plain_text E d b text /\
  float_field_text E no_options 0 None d b text /\
  forall out, write_value_default E out (scalar_of d b) = Ok (out ++ text) /\ write_value E out (scalar_of d b) default_specs = Ok (out ++ text).
Proof.
  intros HE Hok. pose proof (float_scalar _ _ Hok) as Hb.
  destruct (write_total E (point E) (float_info_of d) (ieee_format d) b FNone default_specs (float_kind d) HE Hb) as [[[text Ht] _]|(_ & _ & [])]; [done|done|].
  assert (Hw : forall out, write_value E out (scalar_of d b) default_specs = Ok (out ++ text)).
  { intros out. rewrite <- Ht. by destruct d. }
  exists text. split_and!.
  - unfold float_plain_text. rewrite plain_same by done. apply (Ht []).
  - apply (Hw []).
  - intros out. rewrite plain_same by done. split; [apply Ht|apply Hw].
Qed.
Lemma write_field_float E d b f w p : env_ok E -> scalar_ok (scalar_of d b) -> admits KFloat f -> 0 <= w <= int_max -> (forall n, p = Some n -> 0 <= n <= int_max) ->
  (float_fits f p d b /\ exists text, float_field_text E f w p d b text /\
    forall out wr pr, write_value E out (scalar_of d b) (specs_of f w (default (-1) p) wr pr) = Ok (out ++ text)) \/
  (~ float_fits f p d b /\ forall out wr pr, write_value E out (scalar_of d b) (specs_of f w (default (-1) p) wr pr) = Throw).
Proof.
  intros HE Hok Ha Hw Hp. pose proof (float_scalar _ _ Hok) as Hb.
  assert (Hp' : -1 <= default (-1) p <= max_int).
  { destruct p as [n|]; cbn; [|done]. specialize (Hp n eq_refl). unfold int_max, max_int in *. lia. }
  pose proof (float_fits_refuses f p d b Ha Hp) as Hiff. cbv zeta in Hiff.
  assert (Hm : b mod 2 ^ (carrier_bits (float_info_of d) - 1) = float_magnitude d b) by (by destruct d).
  destruct (write_total E (point E) (float_info_of d) (ieee_format d) b (pres_for_field f) (specs_of f w (default (-1) p) RNone RNone) (float_kind d) HE Hb)
    as [[[text Ht] Hno]|(Ht & Hf & Hyes)]; [unfold int_max in Hw; cbn; lia|done| |]; rewrite Hm in *; cbn [specs_of precision] in *.
  - left. split; [by apply Hiff|]. exists text. split; [unfold float_field_text; rewrite write_floats by done; apply (Ht [])|].
    intros out wr pr. rewrite write_floats, refs_apart by done. apply Ht.
  - right. split; [rewrite Hiff; intros H; by apply H|]. intros out wr pr. rewrite write_floats, refs_apart by done. apply Ht.
Qed.

Lemma floats_written E : env_ok E -> floats_shown E (float_plain_text E) (float_field_text E).
Proof.
  intros HE v d b Hv Hok. apply one_of_float in Hv as ->. split.
  - destruct (write_plain_float E d b HE Hok) as (text & H1 & _ & H2). eauto.
  - intros f w p wr pr Ha Hw Hp. destruct (write_field_float E d b f w p HE Hok Ha Hw Hp) as [(Hf & text & H1 & H2)|[Hf H2]]; [left|right]; eauto.
Qed.
