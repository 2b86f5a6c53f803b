(** The format strings that are accepted, all of them (fmt/core.h): property C142. Chars are bytes. *)
From Coq Require Import Strings.String.
From Verif Require Import Base.Cpp Model.Numeric Model.FmtInt Model.Utf8 Model.Escape Model.Format.
From Verif Require Import Spec.FormatSpec Spec.FieldSpec Spec.TemplateSpec Spec.FloatField.
From Verif Require Import Proofs.FmtIntProofs Proofs.FormatWrite Proofs.GroupingProofs Proofs.FormatScan Proofs.FormatSafe Proofs.FormatParse Proofs.TemplateProofs Proofs.TemplateConverse Proofs.FloatFormat.
From Verif Require Import Properties.Format Properties.FloatTemplate.
Local Open Scope Z_scope.

Notation bytes := (Forall (fun c : Z => 0 <= c < 256)).

(** A string that is formatted is a format string, as TemplateSpec writes them. *)
Lemma accepted_template E A s out : locale_ok E -> arguments_ok A -> bytes s -> vformat E A s = Ok out -> exists ts, template_text ts s.
Proof.
  intros [HE Hsep] HA Hs H.
  pose proof (progress_here E HE Hsep A (arguments_ok_args A HA) s) as Hpr. specialize (Hpr _ _ (floats_written E HE)).
  destruct (parses_exists s _ Hpr 0 0 [] ltac:(lia)) as [r Hr]. unfold vformat in H. rewrite (vformat_to_ok _ _ _ _ Hpr [] r Hr) in H.
  destruct (parses_conv s _ _ _ (on_format_specs_conv E A s Hs) _ _ _ _ Hr out H) as [ts Hts]. exists ts. by rewrite drop_0 in Hts.
Qed.

(** ** C142: the strings that are accepted are those of the grammar, with arguments that fit, and no others *)

Theorem C142_accepted_iff E A s : locale_ok E -> arguments_ok A -> bytes s ->
  (exists out, vformat E A s = Ok out) <-> exists ts, template_text ts s /\ fitting A ts.
Proof.
  intros HE HA Hs. split.
  - intros [out Hout]. destruct (accepted_template E A s out HE HA Hs Hout) as [ts Hts]. exists ts. split; [done|].
    by apply (C119_format_iff E A s ts out HE HA Hts).
  - intros (ts & Hts & Hf). destruct (C119_format E A s ts HE HA Hts Hf) as (texts & _ & H). eauto.
Qed.
Print Assumptions C142_accepted_iff.
Theorem C142_rejected_iff E A s : locale_ok E -> arguments_ok A -> bytes s ->
  vformat E A s = Throw <-> forall ts, template_text ts s -> ~ fitting A ts.
Proof.
  intros HE HA Hs. split.
  - intros H ts Hts Hf. destruct (C119_format E A s ts HE HA Hts Hf) as (texts & _ & H'). congruence.
  - intros H. destruct (C120_returns_or_throws E A s HE HA) as [Hok|?]; [|done].
    apply (C142_accepted_iff E A s HE HA Hs) in Hok as (ts & Hts & Hf). by destruct (H ts Hts).
Qed.
Print Assumptions C142_rejected_iff.
(** The text, of any string: [out] is returned if and only if the string is one of the grammar, the arguments fit, and
    [out] is the text of its items. *)
Theorem C142_text_iff E A s out : locale_ok E -> arguments_ok A -> bytes s ->
  vformat E A s = Ok out <->
  exists ts texts, template_text ts s /\ fitting A ts /\ Forall2 (shown E A) (index 0 ts) texts /\ out = concat texts.
Proof.
  intros HE HA Hs. split.
  - intros Hout. destruct (accepted_template E A s out HE HA Hs Hout) as [ts Hts].
    destruct (proj1 (C119_format_iff E A s ts out HE HA Hts) Hout) as (Hf & texts & H1 & H2). by exists ts, texts.
  - intros (ts & texts & Hts & Hf & Hsh & ->). apply (C119_format_iff E A s ts _ HE HA Hts). eauto.
Qed.
Print Assumptions C142_text_iff.
(** And with the texts of floating-point numbers as FloatField specifies them. *)
Theorem C142_text_specified E A s out : locale_ok E -> point E <> 0 -> arguments_ok A -> bytes s -> vformat E A s = Ok out ->
  exists ts texts, template_text ts s /\ fitting A ts /\ Forall2 (specified E A) (index 0 ts) texts /\ out = concat texts.
Proof.
  intros HE Hpt HA Hs Hout. destruct (accepted_template E A s out HE HA Hs Hout) as [ts Hts].
  assert (Hf : fitting A ts) by (by apply (C119_format_iff E A s ts out HE HA Hts)).
  destruct (C138_format E A s ts HE Hpt HA Hts Hf) as (texts & H1 & H2). exists ts, texts. split_and!; [done..|congruence].
Qed.
Print Assumptions C142_text_specified.

(** A string that no arguments are accepted with, since it is not one of the grammar. *)
Theorem C142_malformed E A s : locale_ok E -> arguments_ok A -> bytes s -> (forall ts, ~ template_text ts s) -> vformat E A s = Throw.
Proof. intros HE HA Hs H. apply C142_rejected_iff; [done..|]. intros ts Hts. by destruct (H ts). Qed.
Print Assumptions C142_malformed.

(** What the grammar lets through that documentation of it would not: a fill that is not UTF-8, as long as its first
    byte says; a point with no precision, before a letter; zeros before a precision; and an index too large for int. *)
Example C142_lenient :
  vformat ex_env ex_args ([123; 48; 58; 195; 40] ++ lit ">5}") = Ok ([195; 40; 195; 40] ++ lit "-42")
  /\ vformat ex_env ex_args (lit "{1:.s}") = Ok (lit "abc") /\ vformat ex_env ex_args (lit "{1:.0000000002}") = Ok (lit "ab")
  /\ vformat ex_env ex_args (lit "{1:.00000000002}") = Throw /\ vformat ex_env ex_args (lit "{1:.}") = Throw
  /\ vformat ex_env ex_args (lit "{0:{99999999999}}") = Throw /\ vformat ex_env ex_args (lit "{01}") = Throw
  /\ vformat ex_env ex_args (lit "{ 0}") = Throw /\ vformat ex_env ex_args (lit "{0:5 }") = Throw /\ vformat ex_env ex_args (lit "{0:#+}") = Throw
  /\ vformat ex_env ex_args (lit "{0:{ 2}}") = Throw /\ vformat ex_env ex_args (lit "{0:00}") = Throw.
Proof. vm_compute. auto 20. Qed.
Example C142_hypotheses : locale_ok ex_env /\ arguments_ok ex_args /\ bytes (lit "{1:.s}") /\
  exists ts, template_text ts (lit "{1:.s}") /\ fitting ex_args ts.
Proof.
  assert (HE : locale_ok ex_env) by apply C119_hypotheses. assert (HA : arguments_ok ex_args) by apply C119_hypotheses.
  assert (Hs : bytes (lit "{1:.s}")) by (change (lit "{1:.s}") with [123; 49; 58; 46; 115; 125]; repeat (constructor; [lia|]); constructor).
  split_and!; [done..|]. apply (C142_accepted_iff ex_env ex_args); [done..|]. eexists. vm_compute. reflexivity.
Qed.
