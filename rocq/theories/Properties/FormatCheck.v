(** The check of a format string when it is compiled (fmt/core.h): properties C143 to C145. Chars are bytes. *)
From Coq Require Import Strings.String.
From Verif Require Import Base.Cpp Model.Numeric Model.FmtInt Model.Utf8 Model.Escape Model.Format Model.FormatCheck.
From Verif Require Import Spec.FormatSpec Spec.FieldSpec Spec.TemplateSpec Spec.CheckSpec Spec.FloatField.
From Verif Require Import Proofs.FmtIntProofs Proofs.FormatWrite Proofs.GroupingProofs Proofs.FormatScan Proofs.FormatSafe Proofs.FormatParse Proofs.TemplateProofs Proofs.TemplateConverse.
From Verif Require Import Proofs.CheckProofs Proofs.CheckAgree.
From Verif Require Import Properties.Format Properties.FloatTemplate Properties.Grammar.
Local Open Scope Z_scope.

(** ** C143: what is compiled *)

(** The check ends, with or without an error. *)
Theorem C143_ends ps s : check_format_string ps s = Ok tt \/ check_format_string ps s = Throw.
Proof. apply check_safe. Qed.
Print Assumptions C143_ends.
(** A string passes if and only if it is a format string, as TemplateSpec writes them, that is right for the types. *)
Theorem C143_accepts_iff ps s : bytes s ->
  check_format_string ps s = Ok tt <-> exists ts, template_text ts s /\ checks (signature_of ps) ts.
Proof.
  intros Hs. split.
  - intros H. destruct (check_conv ps s Hs H) as [ts Hts]. exists ts. split; [done|].
    destruct (check_cases ps s ts Hts) as [[? _]|[_ H']]; [done|congruence].
  - intros (ts & Hts & Hc). destruct (check_cases ps s ts Hts) as [[_ ?]|[? _]]; done.
Qed.
Print Assumptions C143_accepts_iff.
Theorem C143_rejects_iff ps s : bytes s ->
  check_format_string ps s = Throw <-> forall ts, template_text ts s -> ~ checks (signature_of ps) ts.
Proof.
  intros Hs. split.
  - intros H ts Hts Hc. destruct (check_cases ps s ts Hts) as [[_ H']|[? _]]; [congruence|done].
  - intros H. destruct (C143_ends ps s) as [Hok|?]; [|done]. apply (C143_accepts_iff ps s Hs) in Hok as (ts & Hts & Hc). by destruct (H ts Hts).
Qed.
Print Assumptions C143_rejects_iff.

Definition scalars (ts : list ty) : list param := Param None ∘ CtScalar <$> ts.
Example C143_example :
  check_format_string (scalars [TSInt; TStr]) (lit "{:5} and {:>{}}") = Throw
  /\ check_format_string (scalars [TSInt; TStr; TSInt]) (lit "{:5} and {:>{}}") = Ok tt
  /\ check_format_string (scalars [TSInt; TStr; TStr]) (lit "{:5} and {:>{}}") = Throw
  /\ check_format_string (scalars [TStr]) (lit "{:d}") = Throw /\ check_format_string (scalars [TDouble]) (lit "{:+.3e}") = Ok tt
  /\ check_format_string [Param (Some (lit "n")) (CtScalar TSInt); Param None CtSeq] (lit "{n:x}") = Ok tt
  /\ check_format_string [Param None CtSeq; Param None (CtJoin TSInt)] (lit "{} {:02x}") = Ok tt
  /\ check_format_string [Param None CtSeq] (lit "{:5}") = Throw
  /\ check_format_string [] (lit "{") = Throw /\ check_format_string [] (lit "{{}}") = Ok tt.
Proof. vm_compute. auto 20. Qed.

(** ** C144: what is compiled, when it runs *)

(** The arguments are of the types that the string was checked for. *)
Definition has_type (a : arg custom_value) (p : param) : Prop :=
  match a, p_type p with
  | AScalar v, CtScalar t => type_of v = t
  | ACustom (CJoin j), CtJoin t => j_type j = t
  | ACustom (CSeq _ _), CtSeq => True
  | _, _ => False
  end.
Definition typed (A : args custom_value) (ps : list param) : Prop := Forall2 has_type (argv A) ps /\ names A = names_from 0 ps.
Lemma typed_signature A ps : typed A ps -> has_signature (args_of A) (signature_of ps).
Proof.
  intros [H Hn]. split; [|done]. cbn [a_values args_of s_types signature_of]. clear Hn.
  induction H as [|a p l ps Ha H IH]; [done|]. cbn [fmap list_fmap]. f_equal; [|exact IH]. clear -Ha. unfold has_type, compose in *.
  destruct a as [v|[j|t vs]], (p_type p) as [t'|t'|]; try done; cbn; [by rewrite kind_of_one, Ha|by rewrite Ha].
Qed.

(** The exact set of arguments with which a string that passed the check is refused all the same: those with which a
    width or precision that an argument gives is not an integer from 0 to the largest int, or a floating-point number cannot
    have the precision, or a C string is null and not its address is asked for. *)
Theorem C144_passed_throws_iff E A ps s ts : locale_ok E -> arguments_ok A -> typed A ps -> template_text ts s ->
  check_format_string ps s = Ok tt ->
  vformat E A s = Throw <-> ~ Forall (item_counted (args_of A)) (index 0 ts).
Proof.
  intros HE HA Hty Hts Hck. destruct (check_cases ps s ts Hts) as [[[Hone Hc] _]|[_ ?]]; [|congruence].
  assert (Hiff : fitting A ts <-> Forall (item_counted (args_of A)) (index 0 ts)).
  { unfold fitting. rewrite Forall_forall in Hc. rewrite !Forall_forall. split.
    - intros [_ H] i Hi. apply (checked_fits_iff _ _ (typed_signature A ps Hty)); auto.
    - intros H. split; [done|]. intros i Hi. apply (checked_fits_iff _ _ (typed_signature A ps Hty)); auto. }
  rewrite <- Hiff. by apply C121_rejects_iff.
Qed.
Print Assumptions C144_passed_throws_iff.

(** A string whose widths and precisions are all numbers, and not enormous, is formatted with all arguments of the types,
    if no C string is null. *)
Definition not_null (v : scalar) : Prop := match v with VCstr addr _ => addr <> 0 | _ => True end.
Definition no_null (A : args custom_value) : Prop :=
  Forall (fun a => match a with
    | AScalar v => not_null v | ACustom (CSeq _ vs) => Forall not_null vs | ACustom (CJoin j) => Forall not_null (j_elems j) end) (argv A).
Lemma no_null_finds A w v : no_null A -> finds (args_of A) w v -> match v with One v => plain_fits v | Sequence _ vs | Joined _ vs _ => Forall plain_fits vs end.
Proof.
  intros H. assert (Hs : forall vs, Forall not_null vs -> Forall plain_fits (one_of <$> vs)).
  { intros vs Hvs. apply Forall_fmap. eapply Forall_impl; [exact Hvs|]. by intros []. }
  induction 1 as [i v _ Hv|n k i v _ _ _ IH]; [|done]. cbn in Hv. rewrite list_lookup_fmap in Hv. destruct (argv A !! Z.to_nat i) as [a|] eqn:Ha; [|done].
  injection Hv as <-. unfold no_null in H. rewrite Forall_lookup in H. specialize (H _ _ Ha). destruct a as [[]|[j|t vs]]; cbn in *; try done; by apply Hs.
Qed.
Definition literal (c : count) : Prop := match c with OfArg _ => False | Number n => n <= 2 ^ 30 | NoCount | Bare => True end.
Definition literal_item (i : item) : Prop := match i with Show _ (Some f) => literal (f_width f) /\ literal (f_precision f) | _ => True end.
Lemma literal_index n ts : Forall literal_item ts -> Forall literal_item (index n ts).
Proof.
  intros H. revert n. induction H as [|i ts Hi H IH]; intros n; [constructor|]. cbn [index].
  destruct (index_item n i) as [i' n'] eqn:E. constructor; [|apply IH]. clear -Hi E. revert E. destruct i as [c|w [f|]]; cbn.
  - by intros [= <- _].
  - destruct (index_which n w) as [w' n1]. destruct Hi as [Hw Hp]. unfold index_field.
    destruct (f_width f) as [|?|?|], (f_precision f) as [|?|?|]; try done; cbn; intros [= <- _]; done.
  - destruct (index_which n w) as [w' n1]. by intros [= <- _].
Qed.
Theorem C144_literal E A ps s ts : locale_ok E -> arguments_ok A -> typed A ps -> template_text ts s -> Forall literal_item ts -> no_null A ->
  check_format_string ps s = Ok tt -> exists out, vformat E A s = Ok out.
Proof.
  intros HE HA Hty Hts Hlit Hnn Hck. destruct (C120_returns_or_throws E A s HE HA) as [?|Hth]; [done|]. exfalso.
  apply (C144_passed_throws_iff E A ps s ts HE HA Hty Hts Hck) in Hth as Hnot. apply Hnot.
  eapply Forall_impl; [exact (literal_index 0 ts Hlit)|]. intros [c|w [f|]]; [done| |intros _ v Hv; pose proof (no_null_finds A w v Hnn Hv); by destruct v]. intros [Hw Hp]. cbn.
  assert (Hok : forall c, literal c -> exists o, counts (args_of A) c o).
  { intros [|n|w'|] Hl; [eexists; constructor|eexists; constructor|done|eexists; constructor]. }
  assert (Hcs : counts_ok (args_of A) f) by (split; auto).
  assert (Hone : forall v, plain_fits v -> one_fits (args_of A) f v).
  { intros [| | | |d b|a ?|] Hnv; cbn; try done. intros p Hc. apply float_fits_small. destruct (f_precision f); inversion Hc; subst; cbn in *; try done; lia. }
  intros v Hv. pose proof (no_null_finds A w v Hnn Hv) as Hpl. destruct v as [v|k vs|k vs sep']; [by split; [|apply Hone]|done|]. split; [done|].
  eapply Forall_impl; [exact Hpl|]. exact Hone.
Qed.
Print Assumptions C144_literal.

(** A string that passed the check is refused for every argument of the types: a bool or a char counts as an integer in the
    check and not when the string runs, and a width by a name that no argument has is not checked at all. *)
Definition never_fails (ps : list param) (s : list Z) : Prop :=
  forall E A, locale_ok E -> arguments_ok A -> typed A ps -> vformat E A s <> Throw.
Theorem C144_bool_width_refuted E (z : Z) (b : bool) :
  check_format_string (scalars [TSInt; TBool]) (lit "{:{}}") = Ok tt
  /\ typed (Args [AScalar (VInt int32 z); AScalar (VBool b)] []) (scalars [TSInt; TBool])
  /\ vformat E (Args [AScalar (VInt int32 z); AScalar (VBool b)] []) (lit "{:{}}") = Throw.
Proof. split; [by vm_compute|]. split; [split; [repeat constructor|done]|]. by vm_compute. Qed.
Print Assumptions C144_bool_width_refuted.
Theorem C144_char_precision_refuted E (s : list Z) (c : Z) :
  check_format_string (scalars [TStr; TChar]) (lit "{:.{}}") = Ok tt
  /\ typed (Args [AScalar (VStr s); AScalar (VChar c)] []) (scalars [TStr; TChar])
  /\ vformat E (Args [AScalar (VStr s); AScalar (VChar c)] []) (lit "{:.{}}") = Throw.
Proof. split; [by vm_compute|]. split; [split; [repeat constructor|done]|]. by vm_compute. Qed.
Print Assumptions C144_char_precision_refuted.
Theorem C144_no_such_name_refuted E (z : Z) :
  check_format_string (scalars [TSInt]) (lit "{:{w}}") = Ok tt
  /\ typed (Args [AScalar (VInt int32 z)] []) (scalars [TSInt])
  /\ vformat E (Args [AScalar (VInt int32 z)] []) (lit "{:{w}}") = Throw.
Proof. split; [by vm_compute|]. split; [split; [repeat constructor|done]|]. by vm_compute. Qed.
Print Assumptions C144_no_such_name_refuted.
(** So the check does not settle it. *)
Theorem C144_passed_never_fails_refuted : exists ps s, check_format_string ps s = Ok tt /\ ~ never_fails ps s.
Proof.
  exists (scalars [TSInt; TBool]), (lit "{:{}}"). destruct (C144_bool_width_refuted ex_env 7 true) as (H1 & H2 & H3). split; [done|].
  intros H. refine (H ex_env _ _ _ H2 H3); [apply C119_hypotheses|]. repeat constructor; cbn; lia.
Qed.
Print Assumptions C144_passed_never_fails_refuted.
Example C144_hypotheses :
  let A := Args [AScalar (VInt int32 (-42)); AScalar (VStr (lit "abc"))] [] in
  let f1 := Field [] None None false false (Number 5) NoCount false None in
  let f2 := Field [] None None false false NoCount (Number 2) false None in
  let ts := [Show NextArg (Some f1); Text 32; Show NextArg (Some f2)] in
  let ps := scalars [TSInt; TStr] in
  locale_ok ex_env /\ arguments_ok A /\ typed A ps /\ template_text ts (lit "{:5} {:.2}") /\ Forall literal_item ts /\ no_null A /\
  check_format_string ps (lit "{:5} {:.2}") = Ok tt /\ vformat ex_env A (lit "{:5} {:.2}") = Ok (lit "  -42 ab").
Proof.
  intros A f1 f2 ts ps. split_and!; [apply C119_hypotheses| |split; [repeat constructor|done]| |repeat constructor; cbn; lia|by repeat constructor|by vm_compute|by vm_compute].
  - repeat constructor; try done; try (unfold is_byte; lia); vm_compute; (by left || by right; left || by right; right || done).
  - apply (template_field NextArg [] f1 (lit "5") [Text 32; Show NextArg (Some f2)] (lit " {:.2}")); [done|constructor| | |].
    + split; [by left|]. split_and!; done || (cbn; unfold int_max; lia).
    + refine (field_text_intro f1 (lit "5") [] _ _); [|constructor]. constructor. by apply (one_digit 5).
    + apply template_char; [done..|]. apply (template_field NextArg [] f2 (lit ".2") [] []); [done|constructor| | |constructor].
      * split; [by left|]. split_and!; done || (cbn; unfold int_max; lia).
      * refine (field_text_intro f2 [] (lit ".2") _ _); [constructor|]. apply (precision_some (Number 2) [50]); [done|]. constructor. by apply (one_digit 2).
Qed.

(** ** C145: what is not compiled *)

(** A string that does not pass would be refused when it runs, with all arguments of the types, if none of them is a join
    of nothing. *)
Theorem C145_rejected_throws E A ps s : locale_ok E -> arguments_ok A -> typed A ps -> bytes s -> no_empty_join (args_of A) ->
  check_format_string ps s = Throw -> vformat E A s = Throw.
Proof.
  intros HE HA Hty Hs Hne Hck. apply C142_rejected_iff; [done..|]. intros ts Hts [Hone Hfit].
  apply (C143_rejects_iff ps s Hs) with (ts := ts) in Hck; [|done]. apply Hck. split; [done|].
  eapply Forall_impl; [exact Hfit|]. intros i. apply (fits_checks _ _ (typed_signature A ps Hty) i Hne).
Qed.
Print Assumptions C145_rejected_throws.
(** A join of nothing asks for no width. *)
Theorem C145_empty_join E :
  let ps := [Param None (CtJoin TSInt)] in let A := Args [ACustom (CJoin (Join TSInt [] []))] [] in
  typed A ps /\ check_format_string ps (lit "{:{}}") = Throw /\ vformat E A (lit "{:{}}") = Ok [].
Proof. split_and!; [split; [repeat constructor|done]|by vm_compute|by vm_compute]. Qed.
Print Assumptions C145_empty_join.
Example C145_hypotheses :
  let A := Args [AScalar (VInt int32 (-42)); ACustom (CJoin (Join TSInt [VInt int32 7] []))] [] in
  let ps := [Param None (CtScalar TSInt); Param None (CtJoin TSInt)] in
  locale_ok ex_env /\ arguments_ok A /\ typed A ps /\ no_empty_join (args_of A) /\ check_format_string ps (lit "{} {:s}") = Throw.
Proof.
  intros A ps. split_and!; [apply C119_hypotheses| |split; [repeat constructor|done]| |by vm_compute].
  - repeat constructor; try done; try (unfold is_byte; lia); vm_compute; (by left || by right; left || by right; right || done).
  - intros k sep'. cbn. rewrite !elem_of_cons, elem_of_nil. naive_solver.
Qed.
