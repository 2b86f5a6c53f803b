(** Format strings (fmt/core.h, fmt/format.h, format.hpp): properties C80, C81 and C119 to C123. Chars are bytes. *)
From Coq Require Import Strings.String.
From Verif Require Import Base.Cpp Model.Numeric Model.FmtInt Model.Utf8 Model.Escape Model.Format.
From Verif Require Import Spec.FormatSpec Spec.Utf8Spec Spec.EscapeSpec Spec.FieldSpec Spec.TemplateSpec.
From Verif Require Import Proofs.FmtIntProofs Proofs.Utf8Decode Proofs.Utf8Proofs Proofs.EscapeProofs.
From Verif Require Import Proofs.FormatWrite Proofs.GroupingProofs Proofs.FormatValue.
From Verif Require Import Proofs.FormatScan Proofs.FormatSafe Proofs.FormatParse Proofs.TemplateProofs Proofs.FloatFormat Proofs.ShowsUnique.
Local Open Scope Z_scope.

(** The locale has a separator of at most one char, and one only if it has groups. *)
Definition locale_ok (E : env) : Prop := (grouping E = [] -> sep E = []) /\ (length (sep E) <= 1)%nat.
(** Integers are of a type of at most 64 bits, chars and strings of bytes, and the elements of a sequence
    of one type. *)
Definition element_ok (t : ty) (v : scalar) : Prop := scalar_ok v /\ type_of v = t.
Definition arguments_ok (A : args custom_value) : Prop :=
  Forall (fun a => match a with
    | AScalar v => scalar_ok v
    | ACustom (CSeq t vs) => Forall (element_ok t) vs
    | ACustom (CJoin j) => Forall (element_ok (j_type j)) (j_elems j)
    end) (argv A).
Lemma arguments_ok_args A : arguments_ok A -> args_ok custom_value_ok A.
Proof. intros H. eapply Forall_impl; [exact H|]. intros [v|[j|t vs]]; done. Qed.

(** The text of an item (see TemplateSpec), with the locale of [E], UTF-8 columns (C110) the debug texts
    of C112, and the texts of floating-point numbers of C126 and C130 to C138. *)
Definition shown (E : env) (A : args custom_value) : item -> list Z -> Prop :=
  item_shows (Locale (sep E) (grouping E)) columns (fun c t => write_escaped_char [] c = Ok t) (fun s t => write_escaped_string [] s = Ok t)
    (float_plain_text E) (float_field_text E) (args_of A).
(** The arguments are what every item asks for. *)
Definition fitting (A : args custom_value) (ts : list item) : Prop := one_way ts /\ Forall (item_fits (args_of A)) (index 0 ts).

Lemma shown_unique E A i t t' : shown E A i t -> shown E A i t' -> t = t'.
Proof.
  unfold shown. apply item_shows_unique; [apply columns_unique|intros ? ? ? H H'; by rewrite H in H'; injection H'|intros ? ? ? H H'; by rewrite H in H'; injection H'
    |intros ? ? ? ? H H'; unfold float_plain_text in *; rewrite H in H'; by injection H'
    |intros ? ? ? ? ? ? ? H H'; unfold float_field_text in *; rewrite H in H'; by injection H'].
Qed.
Lemma format_cases E A s ts : locale_ok E -> arguments_ok A -> template_text ts s ->
  (fitting A ts /\ exists texts, Forall2 (shown E A) (index 0 ts) texts /\ vformat E A s = Ok (concat texts)) \/
  (~ fitting A ts /\ vformat E A s = Throw).
Proof.
  intros [HE Hsep] HA Ht. destruct (vformat_cases E HE Hsep A (arguments_ok_args A HA) s _ _ (floats_written E HE) ts Ht) as [(H1 & H2 & H3)|[H1 H2]]; [left|by right].
  split; [done|]. exact H3.
Qed.

(** ** C119: a format string is its items, one after the other *)

(** A format string that is a list of chars and fields, however they are written, with arguments that fit:
    the text is that of the items, in order, and nothing else. *)
Theorem C119_format E A s ts : locale_ok E -> arguments_ok A -> template_text ts s -> fitting A ts ->
  exists texts, Forall2 (shown E A) (index 0 ts) texts /\ vformat E A s = Ok (concat texts).
Proof.
  intros HE HA Ht Hf. destruct (format_cases E A s ts HE HA Ht) as [[_ H]|[H _]]; done.
Qed.
Print Assumptions C119_format.
(** The text, in full: [out] is returned if and only if it is the text of the items. *)
Theorem C119_format_iff E A s ts out : locale_ok E -> arguments_ok A -> template_text ts s ->
  vformat E A s = Ok out <-> fitting A ts /\ exists texts, Forall2 (shown E A) (index 0 ts) texts /\ out = concat texts.
Proof.
  intros HE HA Ht. split.
  - intros Hout. destruct (format_cases E A s ts HE HA Ht) as [(Hf & texts & H2 & H3)|[_ H]]; [|congruence].
    split; [done|]. exists texts. split; [done|congruence].
  - intros (Hf & texts & H2 & ->). destruct (format_cases E A s ts HE HA Ht) as [(_ & texts' & H2' & ->)|[H _]]; [|done].
    do 2 f_equal. eapply Forall2_unique; [apply shown_unique|exact H2'|exact H2].
Qed.
Print Assumptions C119_format_iff.

(** Twenty-one chars, a field by order, one by name with a width from an argument, and a sequence. *)
Definition ex_env : env := Env (fun _ _ => true) [3] [44] 46.
Definition ex_args : args custom_value :=
  Args [AScalar (VInt int32 (-42)); AScalar (VStr (lit "abc")); AScalar (VInt int32 6); ACustom (CSeq TBool [VBool true; VBool false])]
    [(lit "name", 1)].
Example C119_example :
  vformat ex_env ex_args (lit "n={0:#x} {{{name:*^{2}.2}}} s={3} {0:+08d}") = Ok (lit "n=-0x2a {**ab**} s=[true, false] -0000042")
  /\ vformat ex_env ex_args (lit "{}-{}") = Ok (lit "-42-abc").
Proof. vm_compute. auto. Qed.
Lemma one_digit d : 0 <= d < 10 -> numeral 10 false d [48 + d].
Proof. intros Hd. exists [d]. cbn [fmap list_fmap]. rewrite digit_char_eq by done. split_and!; [done|constructor; [done|constructor]|done|done|]. cbn. by intros [= ->]. Qed.
Example C119_hypotheses : locale_ok ex_env /\ arguments_ok ex_args /\
  let f := Field [42] (Some PlCenter) None false false (OfArg (ArgAt 2)) (Number 2) false None in
  let ts := [Text 123; Show (Named (lit "name")) (Some f); Show (ArgAt 3) None] in
  template_text ts (lit "{{{name:*^{2}.2}{3}") /\ fitting ex_args ts.
Proof.
  split; [done|]. split.
  { repeat constructor; try done; try (unfold is_byte; lia); vm_compute; (by left || by right; left || by right; right || done). }
  cbv zeta. split.
  - apply (template_brace 123); [by left|].
    apply (template_field (Named (lit "name")) (lit "name") _ (lit "*^{2}.2") [Show (ArgAt 3) None] (lit "{3}")).
    + change (which_ok (Named [110; 97; 109; 101])). cbn [which_ok name_ok]. unfold letter. split; [lia|]. repeat (apply Forall_cons; split; [lia|]). by apply Forall_nil.
    + constructor.
    + split; [|split_and!; done || (cbn; unfold int_max; lia)]. right. split; [done|]. exists 42, []. split_and!; done || lia.
    + refine (field_text_intro (Field [42] (Some PlCenter) None false false (OfArg (ArgAt 2)) (Number 2) false None) (lit "{2}") (lit ".2") _ _).
      * apply (count_arg (ArgAt 2) [50]). constructor. by apply (one_digit 2).
      * apply (precision_some (Number 2) [50]); [done|]. constructor. by apply (one_digit 2).
    + apply (template_show (ArgAt 3) [51] [] []); [cbn; unfold int_max; lia| |constructor]. constructor. by apply (one_digit 3).
  - split; [right; repeat constructor; done|]. cbn [index index_item index_which index_field index_count f_width f_precision].
    assert (H2 : finds (args_of ex_args) (ArgAt 2) (One (OInt true 6))) by (constructor; [done|reflexivity]).
    constructor; [done|]. constructor; [|constructor; [|constructor]].
    + exists (One (OString (lit "abc"))). split; [|split].
      * apply (finds_named _ _ 0 1); [done|intros; lia|]. constructor; [done|reflexivity].
      * split; [done|]. split_and!; try done. by left.
      * split; [|done]. split; [exists (Some 6)|exists (Some 2)].
        -- apply (counts_arg _ _ true 6); [exact H2|unfold int_max; lia].
        -- constructor.
    + exists (Sequence KBool [OBool true; OBool false]). split; [constructor; [done|reflexivity]|by repeat constructor].
Qed.

(** ** C80: sequences are formatted as bracketed comma-separated lists *)

(** None of them is a null C string. *)
Definition none_null (vs : list scalar) : Prop := forall chars, VCstr 0 chars ∉ vs.
Lemma none_null_fits vs : none_null vs -> Forall plain_fits (one_of <$> vs).
Proof.
  intros H. apply Forall_fmap, Forall_forall. intros v Hv. unfold compose. destruct v as [| | | | | |a chars|]; cbn; try done. intros ->. by apply (H chars).
Qed.
Lemma none_null_fmap {V} (f : V -> scalar) l : (forall x chars, f x <> VCstr 0 chars) -> none_null (f <$> l).
Proof. intros H chars Hc. apply elem_of_list_fmap in Hc as (x & Hx & _). by apply (H x chars). Qed.
Theorem C80_sequence E t vs : locale_ok E -> Forall (element_ok t) vs -> none_null vs ->
  exists texts, Forall2 (fun v text => plain_shows (float_plain_text E) (one_of v) text) vs texts /\
    vformat E (Args [ACustom (CSeq t vs)] []) (lit "{}") = Ok (lit "[" ++ separated (lit ", ") texts ++ lit "]").
Proof.
  intros HE Hvs Hnn. set (A := Args [ACustom (CSeq t vs)] []).
  assert (HA : arguments_ok A) by (by repeat constructor).
  assert (Ht : template_text [Show NextArg None] (lit "{}")) by (apply (template_show NextArg [] [] []); constructor).
  assert (Hf : finds (args_of A) (ArgAt 0) (Sequence (kind_of_ty t) (one_of <$> vs))) by (by constructor).
  destruct (C119_format E A _ _ HE HA Ht) as (texts & Htexts & Hout).
  { split; [left; repeat constructor; done|]. constructor; [|constructor]. eexists. split; [exact Hf|by apply none_null_fits]. }
  cbn in Htexts. inversion Htexts as [|i text is texts' Hi Hnil]; subst. inversion Hnil; subst. clear Htexts Hnil.
  inversion Hi as [|w fo v text' Hv Hshow]; subst. rewrite (finds_unique _ _ _ _ Hv Hf) in Hshow.
  inversion Hshow as [| |k vs' fo' texts' Hall| |]; subst. exists texts'. split.
  - clear -Hall. revert texts' Hall. induction vs as [|v vs IH]; intros texts' H; inversion H; subst; constructor; [done|by apply IH].
  - rewrite Hout. cbn [concat]. by rewrite app_nil_r.
Qed.
Print Assumptions C80_sequence.
(** Texts without a comma, and not empty, are told apart when they are separated by commas. *)
Lemma separated_inj {V} (P : V -> list Z -> Prop) vs vs' texts texts' :
  (forall v text, P v text -> Forall (fun c => c <> 44) text /\ text <> []) -> (forall v v' text, P v text -> P v' text -> v = v') ->
  Forall2 P vs texts -> Forall2 P vs' texts' -> separated (lit ", ") texts = separated (lit ", ") texts' -> vs = vs'.
Proof.
  intros Hd Hinj Hall Hall' Hs.
  assert (Hsplit : forall a b l l', Forall (fun c : Z => c <> 44) a -> Forall (fun c : Z => c <> 44) b ->
    a ++ l = b ++ l' -> (head l = None \/ head l = Some 44) -> (head l' = None \/ head l' = Some 44) -> a = b /\ l = l').
  { induction a as [|x a IH]; intros [|y b] l l' Ha Hb Heq Hl Hl'; cbn in Heq.
    - done.
    - subst l. apply Forall_cons in Hb as [Hy _]. cbn in Hl. destruct Hl as [?|[= ?]]; [done|by subst].
    - subst l'. apply Forall_cons in Ha as [Hx _]. cbn in Hl'. destruct Hl' as [?|[= ?]]; [done|by subst].
    - apply Forall_cons in Ha as [_ Ha]. apply Forall_cons in Hb as [_ Hb]. injection Heq as -> Heq.
      destruct (IH b l l' Ha Hb Heq Hl Hl') as [-> ->]. done. }
  assert (Hhead : forall ts : list (list Z), head (concat (map (app (lit ", ")) ts)) = None \/ head (concat (map (app (lit ", ")) ts)) = Some 44).
  { intros [|? ?]; [by left|by right]. }
  destruct texts as [|x texts], texts' as [|y texts'].
  - inversion Hall. inversion Hall'. done.
  - exfalso. inversion Hall' as [|? ? ? ? H1]; subst. cbn in Hs. symmetry in Hs. apply app_eq_nil in Hs as [-> _]. by destruct (Hd _ _ H1).
  - exfalso. inversion Hall as [|? ? ? ? H1]; subst. cbn in Hs. apply app_eq_nil in Hs as [-> _]. by destruct (Hd _ _ H1).
  - inversion Hall as [|z ? zs ? Hz Hzs]; subst. inversion Hall' as [|z' ? zs' ? Hz' Hzs']; subst. cbn [separated] in Hs.
    destruct (Hd _ _ Hz) as [Hx _]. destruct (Hd _ _ Hz') as [Hy _].
    destruct (Hsplit x y _ _ Hx Hy Hs (Hhead _) (Hhead _)) as [<- Hrest]. f_equal; [by eapply Hinj|].
    clear x Hz Hz' Hx Hy Hs Hall Hall'. revert zs' texts' Hzs' Hrest. induction Hzs as [|z0 x zs texts Hz Hzs IH]; intros zs' texts' Hzs' Hrest.
    + destruct Hzs'; [done|]. by cbn in Hrest.
    + destruct Hzs' as [|z1 y zs' texts' Hz' Hzs']; [done|]. cbn [map concat] in Hrest. rewrite <- !app_assoc in Hrest. apply app_inv_head in Hrest.
      destruct (Hd _ _ Hz) as [Hx _]. destruct (Hd _ _ Hz') as [Hy _].
      destruct (Hsplit x y _ _ Hx Hy Hrest (Hhead _) (Hhead _)) as [<- Hrest']. f_equal; [by eapply Hinj|]. by eapply IH.
Qed.
(** The elements read back from the text of a sequence of integers: no two are written alike. *)
Theorem C80_sequence_of_ints_tells_apart E t t' vs vs' : locale_ok E ->
  Forall (fun z => in_range t z = true) vs -> Forall (fun z => in_range t' z = true) vs' -> int_type t -> int_type t' ->
  vformat E (Args [ACustom (CSeq (type_of (VInt t 0)) (VInt t <$> vs))] []) (lit "{}")
  = vformat E (Args [ACustom (CSeq (type_of (VInt t' 0)) (VInt t' <$> vs'))] []) (lit "{}") -> vs = vs'.
Proof.
  intros HE Hvs Hvs' Ht Ht'.
  destruct (C80_sequence E (type_of (VInt t 0)) (VInt t <$> vs) HE) as (texts & Hall & ->).
  { apply Forall_fmap. eapply Forall_impl; [exact Hvs|]. done. }
  { by apply none_null_fmap. }
  destruct (C80_sequence E (type_of (VInt t' 0)) (VInt t' <$> vs') HE) as (texts' & Hall' & ->).
  { apply Forall_fmap. eapply Forall_impl; [exact Hvs'|]. done. }
  { by apply none_null_fmap. }
  intros H. assert (Hs : separated (lit ", ") texts = separated (lit ", ") texts').
  { assert (H' := f_equal (fun r => match r with Ok x => x | _ => [] end) H). cbn beta iota in H'. apply app_inv_head in H'. by apply app_inv_tail in H'. }
  assert (Hfm : forall t zs texts, Forall2 (fun v text => plain_shows (float_plain_text E) (one_of v) text) (VInt t <$> zs) texts -> Forall2 decimal zs texts).
  { clear. induction zs as [|z zs IH]; intros texts H; inversion H; subst; constructor; [done|by apply IH]. }
  apply Hfm in Hall, Hall'. clear H Hvs Hvs'.
  eapply separated_inj; [|intros v v' text H1 H2; by eapply decimal_inj|exact Hall|exact Hall'|exact Hs].
  intros z text (digits & (ds & -> & Hf & _ & Hne & _) & ->). split.
  - apply Forall_app. split; [destruct (decide (z < 0)); repeat constructor; done|]. apply Forall_fmap. eapply Forall_impl; [exact Hf|].
    intros d Hd. cbn in Hd. cbn -[digit_char]. rewrite digit_char_eq by done. lia.
  - destruct ds; [done|]. rewrite fmap_cons. destruct (decide (z < 0)); done.
Qed.
Print Assumptions C80_sequence_of_ints_tells_apart.
Example C80_example :
  vformat ex_env (Args [ACustom (CSeq TSInt (VInt int32 <$> [1; -20; 300]))] []) (lit "{}") = Ok (lit "[1, -20, 300]")
  /\ vformat ex_env (Args [ACustom (CSeq TStr [])] []) (lit "<{}>") = Ok (lit "<[]>")
  /\ Forall (element_ok TSInt) (VInt int32 <$> [1; -20; 300]) /\ none_null (VInt int32 <$> [1; -20; 300]).
Proof. split_and!; [vm_compute; reflexivity..| |by apply none_null_fmap]. repeat constructor; done. Qed.

(** ** C81: literal text and escaped braces *)

(** Chars, with the braces doubled, are themselves. *)
Theorem C81_literal E A s cs : locale_ok E -> arguments_ok A -> template_text (Text <$> cs) s -> vformat E A s = Ok cs.
Proof.
  intros HE HA Ht. assert (Hidx : forall cs, index 0 (Text <$> cs) = Text <$> cs).
  { intros l. induction l as [|c l IH]; [done|]. cbn. f_equal. exact IH. }
  assert (Hask : asked (Text <$> cs) = []) by (clear; induction cs; [done|exact IHcs]).
  assert (Hsh : forall cs texts, Forall2 (shown E A) (Text <$> cs) texts -> concat texts = cs).
  { clear. induction cs as [|c cs IH]; intros texts H; inversion H as [|? ? ? ? Hc Hrest]; subst; [done|]. inversion Hc; subst. cbn. f_equal. by apply IH. }
  destruct (C119_format E A s _ HE HA Ht) as (texts & H & ->).
  - split; [left; rewrite Hask; constructor|]. rewrite Hidx. apply Forall_fmap, Forall_true. done.
  - rewrite Hidx in H. by rewrite (Hsh _ _ H).
Qed.
Print Assumptions C81_literal.
(** There is a format string for every text. *)
Theorem C81_every_text E A cs : locale_ok E -> arguments_ok A ->
  vformat E A (concat ((fun c => if decide (c = 123 \/ c = 125) then [c; c] else [c]) <$> cs)) = Ok cs.
Proof.
  intros HE HA. apply C81_literal; [done|done|]. induction cs as [|c cs IH]; [constructor|]. cbn [fmap list_fmap concat].
  destruct (decide (c = 123 \/ c = 125)) as [Hc|Hc]; [by apply template_brace|apply template_char; [lia|lia|done]].
Qed.
Print Assumptions C81_every_text.
(** A } that is not doubled, after any well-formed string. *)
Theorem C81_lone_brace E A ts pre rest : locale_ok E -> arguments_ok A -> template_text ts pre -> head rest <> Some 125 ->
  vformat E A (pre ++ 125 :: rest) = Throw.
Proof. intros [HE Hsep] HA Ht Hr. by eapply (vformat_lone E HE Hsep A (arguments_ok_args A HA) _ _ _ (floats_written E HE)). Qed.
Print Assumptions C81_lone_brace.
(** A { that is neither doubled nor closed, after any well-formed string. *)
Theorem C81_open_brace E A ts pre rest : locale_ok E -> arguments_ok A -> template_text ts pre ->
  head rest <> Some 123 -> Forall (fun c => c <> 125) rest -> vformat E A (pre ++ 123 :: rest) = Throw.
Proof. intros [HE Hsep] HA Ht Hh Hr. by eapply (vformat_open E HE Hsep A (arguments_ok_args A HA) _ _ _ (floats_written E HE)). Qed.
Print Assumptions C81_open_brace.
Example C81_example :
  vformat ex_env ex_args (lit "a{{b}}c, and this one is longer than thirty-two {{chars}}") = Ok (lit "a{b}c, and this one is longer than thirty-two {chars}")
  /\ vformat ex_env ex_args (lit "a{}b}c") = Throw /\ vformat ex_env ex_args (lit "a{}b{") = Throw /\ vformat ex_env ex_args (lit "a{}b{0:x") = Throw.
Proof. vm_compute. auto. Qed.

(** ** C120: formatting returns or throws *)

(** Whatever the format string is, well-formed or not: it is read in its bounds only, and every loop ends. *)
Theorem C120_returns_or_throws E A s : locale_ok E -> arguments_ok A -> (exists out, vformat E A s = Ok out) \/ vformat E A s = Throw.
Proof.
  intros [HE Hsep] HA. pose proof (vformat_safe E A s HE Hsep (arguments_ok_args A HA)) as H.
  destruct (vformat E A s) as [out| | |]; [left; eauto|by right|done..].
Qed.
Print Assumptions C120_returns_or_throws.
Example C120_some_strings :
  vformat ex_env ex_args (lit "{:{") = Throw /\ vformat ex_env ex_args (lit "{0:.") = Throw /\ vformat ex_env ex_args (lit "{99999999999999}") = Throw
  /\ vformat ex_env ex_args [123; 58; 240; 62; 125] = Throw /\ vformat ex_env ex_args (lit "{0:>}") = Ok (lit "-42").
Proof. vm_compute. auto. Qed.

(** ** C121: arguments that do not fit are rejected *)

(** A well-formed string throws exactly if an argument is missing, or of a kind that does not admit the
    field, or the numbering is mixed. *)
Theorem C121_rejects_iff E A s ts : locale_ok E -> arguments_ok A -> template_text ts s -> vformat E A s = Throw <-> ~ fitting A ts.
Proof.
  intros HE HA Ht. destruct (format_cases E A s ts HE HA Ht) as [(Hf & texts & _ & ->)|[Hf ->]]; split; done.
Qed.
Print Assumptions C121_rejects_iff.
(** Some item shows an argument by its order, another one by its index. *)
Theorem C121_mixed_numbering E A s ts i : locale_ok E -> arguments_ok A -> template_text ts s ->
  NextArg ∈ asked ts -> ArgAt i ∈ asked ts -> vformat E A s = Throw.
Proof.
  intros HE HA Ht H1 H2. apply (C121_rejects_iff E A s ts HE HA Ht). intros [[H|H] _]; rewrite Forall_forall in H.
  - by apply (H _ H2 i).
  - by apply (H _ H1).
Qed.
Print Assumptions C121_mixed_numbering.
(** More fields by order than arguments. *)
Definition by_order (i : item) : Prop := exists f, i = Show NextArg f.
Global Instance by_order_dec i : Decision (by_order i).
Proof. refine (match i with Show NextArg f => left (ex_intro _ f eq_refl) | _ => right _ end); intros [f' Hf']; done. Defined.
Theorem C121_too_few E A s ts : locale_ok E -> arguments_ok A -> template_text ts s ->
  (length (argv A) < length (filter by_order ts))%nat -> vformat E A s = Throw.
Proof.
  intros HE HA Ht Hlt. apply (C121_rejects_iff E A s ts HE HA Ht). intros [_ Hf].
  assert (Hmono : forall c n, n <= (index_count n c).2).
  { intros c n; destruct c as [| |[]|]; cbn; lia. }
  assert (Hfield : forall f n, n <= (index_field n f).2).
  { intros f n. unfold index_field. pose proof (Hmono (f_width f) n). destruct (index_count n (f_width f)) as [c n']. cbn in *.
    pose proof (Hmono (f_precision f) n'). destruct (index_count n' (f_precision f)) as [c' n'']. cbn in *. lia. }
  assert (Hitem : forall i n, n + (if decide (by_order i) then 1 else 0) <= (index_item n i).2).
  { intros [c|w [f|]] n; destruct (decide _) as [Hd|Hd]; try (by destruct Hd as [? ?]); cbn.
    - lia.
    - destruct Hd as [f' [= -> _]]. cbn. pose proof (Hfield f (n + 1)). destruct (index_field (n + 1) f). cbn in *. lia.
    - destruct w; [by destruct Hd; eexists|..]; cbn; pose proof (Hfield f n); destruct (index_field n f); cbn in *; lia.
    - destruct Hd as [f' [= -> _]]. cbn. lia.
    - destruct w; [by destruct Hd; eexists|..]; cbn; lia. }
  assert (Hall : forall ts n, 0 <= n -> Forall (item_fits (args_of A)) (index n ts) ->
    length (filter by_order ts) = 0%nat \/ n + Z.of_nat (length (filter by_order ts)) <= Z.of_nat (length (argv A))).
  { clear -Hitem. induction ts as [|i ts IH]; intros n Hn Hf; [by left|]. cbn [index] in Hf. pose proof (Hitem i n) as Hi.
    destruct (index_item n i) as [i' n'] eqn:Hidx. cbn in Hi. apply Forall_cons in Hf as [Hfi Hf]. rewrite filter_cons. destruct (decide (by_order i)) as [Hd|Hd].
    - right. cbn [length]. assert (n < Z.of_nat (length (argv A))).
      { destruct Hd as [f ->]. assert (exists f', i' = Show (ArgAt n) f') as [f' ->].
        { cbn in Hidx. destruct f as [f|]; [|by injection Hidx as <-; eexists]. cbn in Hidx. destruct (index_field (n + 1) f). injection Hidx as <-. by eexists. }
        destruct Hfi as (v & Hv & _). inversion Hv as [? ? ? Hl|]; subst. apply lookup_lt_Some in Hl. unfold args_of in Hl. cbn [a_values] in Hl.
        rewrite fmap_length in Hl. lia. }
      destruct (IH n' ltac:(lia) Hf); lia.
    - destruct (IH n' ltac:(lia) Hf); [by left|right; lia]. }
  destruct (Hall ts 0 ltac:(lia) Hf); lia.
Qed.
Print Assumptions C121_too_few.
Example C121_example :
  vformat ex_env ex_args (lit "{} {0}") = Throw /\ vformat ex_env ex_args (lit "{}{}{}{}{}") = Throw
  /\ vformat ex_env ex_args (lit "{1:d}") = Throw /\ vformat ex_env ex_args (lit "{0:.2}") = Throw /\ vformat ex_env ex_args (lit "{3:x}") = Throw
  /\ vformat ex_env ex_args (lit "{0:{1}}") = Throw /\ vformat ex_env ex_args (lit "{nom}") = Throw.
Proof. vm_compute. auto 10. Qed.

(** ** C122: fields without an index take the arguments in order *)

(** The string with the indexes written out, [index 0 ts], gives the same. *)
Theorem C122_numbering E A s s' ts : locale_ok E -> arguments_ok A -> template_text ts s -> template_text (index 0 ts) s' -> one_way ts ->
  vformat E A s = vformat E A s'.
Proof.
  intros HE HA Ht Ht' How.
  assert (Hc : forall c n, Forall (fun w => w <> NextArg) (asked_by_count (index_count n c).1)).
  { intros c n; destruct c as [| |[]|]; cbn; repeat constructor; done. }
  assert (Hc' : forall c n, Forall (fun w => w <> NextArg) (asked_by_count c) -> index_count n c = (c, n)).
  { intros c n H; destruct c as [| |[]|]; cbn in *; try done. by apply Forall_cons in H as [? _]. }
  assert (Hi : forall i n, Forall (fun w => w <> NextArg) (asked_by (index_item n i).1)).
  { intros [c|w [f|]] n; [constructor|..].
    - cbn. destruct (index_which n w) as [w' n'] eqn:Hw. unfold index_field.
      pose proof (Hc (f_width f) n') as H1. destruct (index_count n' (f_width f)) as [c1 n1]. pose proof (Hc (f_precision f) n1) as H2.
      destruct (index_count n1 (f_precision f)) as [c2 n2]. cbn in *. constructor; [|by apply Forall_app].
      destruct w; injection Hw as <- _; done.
    - cbn. destruct w; cbn; repeat constructor; done. }
  assert (Hi' : forall i n, Forall (fun w => w <> NextArg) (asked_by i) -> index_item n i = (i, n)).
  { intros [c|w [f|]] n H; cbn in *; [done|..].
    - apply Forall_cons in H as [Hw H]. apply Forall_app in H as [H1 H2]. unfold index_field.
      destruct w; [done|..]; cbn; rewrite Hc' by done; rewrite Hc' by done; by destruct f.
    - apply Forall_cons in H as [Hw _]. by destruct w. }
  assert (Hall : forall ts n, Forall (fun w => w <> NextArg) (asked (index n ts))).
  { clear -Hi. induction ts as [|i ts IH]; intros n; [constructor|]. cbn [index]. pose proof (Hi i n) as H. destruct (index_item n i) as [i' n'].
    unfold asked. cbn [map concat]. apply Forall_app. split; [done|apply IH]. }
  assert (Hidem : forall ts n, Forall (fun w => w <> NextArg) (asked ts) -> index n ts = ts).
  { clear -Hi'. induction ts as [|i ts IH]; intros n H; [done|]. unfold asked in H. cbn [map concat] in H. apply Forall_app in H as [H1 H2].
    cbn [index]. rewrite (Hi' i n H1). f_equal. by apply IH. }
  assert (Hii : index 0 (index 0 ts) = index 0 ts) by (apply Hidem, Hall).
  assert (Hfit : fitting A ts <-> fitting A (index 0 ts)).
  { unfold fitting. rewrite Hii. split; intros [_ H]; split; [right; apply Hall|done|done|done]. }
  destruct (format_cases E A s ts HE HA Ht) as [(Hf & texts & H1 & ->)|[Hf ->]].
  - symmetry. apply (C119_format_iff E A s' (index 0 ts) _ HE HA Ht'). split; [by apply Hfit|]. exists texts. by rewrite Hii.
  - symmetry. apply (C121_rejects_iff E A s' (index 0 ts) HE HA Ht'). by rewrite <- Hfit.
Qed.
Print Assumptions C122_numbering.
Example C122_example :
  vformat ex_env ex_args (lit "{} {:{}}") = vformat ex_env ex_args (lit "{0} {1:{2}}")
  /\ vformat ex_env ex_args (lit "{} {:{}}") = Ok (lit "-42 abc   ")
  /\ index 0 [Show NextArg None; Text 32; Show NextArg (Some (Field [] None None false false (OfArg NextArg) NoCount false None))]
     = [Show (ArgAt 0) None; Text 32; Show (ArgAt 1) (Some (Field [] None None false false (OfArg (ArgAt 2)) NoCount false None))].
Proof. vm_compute. auto. Qed.

(** ** C123: numbers in a format string are read exactly *)

Lemma large_digits n t : numeral 10 false n t -> int_max < n ->
  exists ds d d' l, t = digit_char false <$> ds /\ ds = d :: d' :: l /\ Forall (fun d => 0 <= d < 10) ds /\ d <> 0 /\ forall e, parsed_number e ds = e.
Proof.
  intros (ds & -> & Hf & Hn & Hne & Hz) Hlt. exists ds. pose proof (number_bound 10 ds ltac:(lia) Hf) as Hb.
  destruct ds as [|d [|d' l]]; [done|apply Forall_cons in Hf as [Hd _]; cbn in Hn, Hd; unfold int_max in Hlt; lia|]. exists d, d', l. split_and!; try done.
  - intros ->. specialize (Hz eq_refl). done.
  - intros e. unfold parsed_number. rewrite decide_False; [done|]. lia.
Qed.
Lemma large_width s p t next ds rest d d' l : drop p s = (digit_char false <$> ds) ++ rest -> ds = d :: d' :: l -> Forall (fun d => 0 <= d < 10) ds -> d <> 0 ->
  (forall e, parsed_number e ds = e) -> (forall c, head rest = Some c -> is_digit c = false) -> parse_format_specs s p t next = Throw.
Proof.
  intros Hs -> Hf H0 Hp Hr.
  pose proof (parse_nonnegative_int_ok s p (-1) _ rest Hs Hf ltac:(done) Hr) as Hpn. rewrite Hp in Hpn.
  apply Forall_cons in Hf as [Hd Hf]. apply Forall_cons in Hf as [Hd' _]. rewrite !fmap_cons in Hs. cbn [app] in Hs.
  pose proof (drop_next _ _ _ _ Hs) as Hs1. pose proof (drop_lt _ _ _ _ Hs1) as Hl.
  unfold parse_format_specs. rewrite decide_False by lia. rewrite (get_head _ _ _ _ Hs). cbn [bind]. rewrite decide_True by lia.
  rewrite (get_head _ _ _ _ Hs1). cbn [bind]. rewrite !digit_char_eq by done.
  rewrite decide_True by (unfold parse_align; by rewrite !decide_False by lia).
  rewrite loop_S. unfold specs_step.
  rewrite !decide_False by lia. replace (is_digit (48 + d)) with true by (unfold is_digit; symmetry; apply andb_true_iff; rewrite !Z.leb_le; lia).
  cbn [orb]. change (enter_state 0 5 true) with (Ok 5%nat). cbn [bind]. unfold parse_dynamic_spec.
  rewrite (get_head _ _ _ _ Hs). cbn [bind]. rewrite digit_char_eq by done.
  replace (is_digit (48 + d)) with true by (unfold is_digit; symmetry; apply andb_true_iff; rewrite !Z.leb_le; lia).
  rewrite Hpn. cbn [bind]. by rewrite decide_False by lia.
Qed.

(** C119 has it for the indexes, widths and precisions of int. A width that is not of int is an error,
    with any argument. *)
Theorem C123_width_too_large E A n t rest : locale_ok E -> arguments_ok A -> numeral 10 false n t -> int_max < n ->
  (forall c, head rest = Some c -> ~ (48 <= c <= 57)) -> vformat E A ([123; 58] ++ t ++ rest) = Throw.
Proof.
  intros [HE Hsep] HA Hn Hlt Hrest. destruct (large_digits n t Hn Hlt) as (ds & d & d' & l & -> & Hds & Hf & H0 & Hp).
  assert (Hr : forall c, head rest = Some c -> is_digit c = false).
  { intros c Hc. specialize (Hrest c Hc). unfold is_digit. apply andb_false_iff. rewrite !Z.leb_gt. lia. }
  set (s := [123; 58] ++ _ ++ _). assert (Hs : drop 2 s = (digit_char false <$> ds) ++ rest) by done.
  assert (Hs0 : drop 0 s = 123 :: 58 :: (digit_char false <$> ds) ++ rest) by done. pose proof (drop_next _ _ _ _ Hs0) as Hs1.
  assert (Hlen : (length s >= 4)%nat) by (unfold s; rewrite !app_length, fmap_length, Hds; cbn; lia).
  pose proof (arguments_ok_args A HA) as HA'. unfold vformat.
  apply vformat_to_ok; [by apply (progress_ok seq_custom custom_value_ok E HE Hsep); [apply seq_custom_safe|]|].
  apply (parses_error _ _ 0 0 [] Throw); [done| |done].
  unfold parse_replacement_field, replacement_field. rewrite decide_False by lia. rewrite (get_head _ _ _ _ Hs1). cbn [bind]. rewrite !decide_False by done.
  unfold parse_arg_id. rewrite (get_head _ _ _ _ Hs1). cbn [bind]. rewrite decide_False by lia. cbn [bind on_arg_id].
  change (next_arg_id 0) with (Ok (0, 1)). cbn [bind]. rewrite decide_True by lia. rewrite (get_head _ _ _ _ Hs1). cbn [bind]. rewrite decide_False, decide_True by done.
  unfold on_format_specs. pose proof (get_arg_safe custom_value_ok A 0 HA') as Ha.
  destruct (get_arg A 0) as [a| | |]; cbn [bind safe] in *; try done.
  destruct a as [v|c].
  { rewrite (large_width s 2 _ _ ds rest d d' l) by done. done. }
  pose proof (seq_custom_safe E HE Hsep A c s 2%nat 1 [] HA' Ha ltac:(lia)) as Hc. destruct c as [j|ty vs]; cbn [seq_custom] in *.
  { unfold join_custom. rewrite (large_width s 2 _ _ ds rest d d' l) by done. done. }
  destruct (vformat_to join_custom E _ _ []) as [o| | |]; cbn [bind safe] in *; try done. rewrite decide_False by lia.
  rewrite Hds, fmap_cons in Hs. cbn [app] in Hs. rewrite (get_head _ _ _ _ Hs). cbn [bind]. rewrite Hds in Hf. apply Forall_cons in Hf as [Hd _].
  rewrite digit_char_eq by done. by rewrite decide_True by lia.
Qed.
Print Assumptions C123_width_too_large.
(** So is an index, of less than 2^31 arguments. *)
Theorem C123_index_too_large E A n t rest : locale_ok E -> arguments_ok A -> (Z.of_nat (length (argv A)) <= int_max) -> numeral 10 false n t -> int_max < n ->
  (forall c, head rest = Some c -> ~ (48 <= c <= 57)) -> vformat E A ([123] ++ t ++ rest) = Throw.
Proof.
  intros [HE Hsep] HA Hlen Hn Hlt Hrest. destruct (large_digits n t Hn Hlt) as (ds & d & d' & l & -> & Hds & Hf & H0 & Hp).
  assert (Hr : forall c, head rest = Some c -> is_digit c = false).
  { intros c Hc. specialize (Hrest c Hc). unfold is_digit. apply andb_false_iff. rewrite !Z.leb_gt. lia. }
  set (s := [123] ++ _ ++ _). assert (Hs : drop 1 s = (digit_char false <$> ds) ++ rest) by done.
  pose proof (arguments_ok_args A HA) as HA'. unfold vformat.
  apply vformat_to_ok; [by apply (progress_ok seq_custom custom_value_ok E HE Hsep); [apply seq_custom_safe|]|].
  assert (Hlen' : (length s >= 3)%nat) by (unfold s; rewrite !app_length, fmap_length, Hds; cbn; lia).
  apply (parses_error _ _ 0 0 [] Throw); [done| |done].
  pose proof (parse_nonnegative_int_ok s 1 max_int _ rest Hs Hf ltac:(by rewrite Hds) Hr) as Hpn. rewrite Hp in Hpn.
  rewrite Hds in Hf. apply Forall_cons in Hf as [Hd Hf]. rewrite Hds, fmap_cons in Hs. cbn [app] in Hs. rewrite digit_char_eq in Hs by done.
  unfold parse_replacement_field, replacement_field. rewrite decide_False by lia. rewrite (get_head _ _ _ _ Hs). cbn [bind]. rewrite !decide_False by lia.
  unfold parse_arg_id. rewrite (get_head _ _ _ _ Hs). cbn [bind]. rewrite decide_True by lia.
  replace (is_digit (48 + d)) with true by (unfold is_digit; symmetry; apply andb_true_iff; rewrite !Z.leb_le; lia).
  rewrite decide_True by lia. rewrite Hpn. cbn [bind]. destruct (decide _) as [|Hne]; [done|].
  pose proof (parse_nonnegative_int_safe s 1 max_int (48 + d)) as Hsafe. rewrite Hpn in Hsafe. cbn [safe] in Hsafe.
  destruct (lookup_lt_is_Some_2 s (1 + length ds)) as [c Hc].
  { destruct Hsafe as [Hb _]; [by eapply drop_head| |lia]. unfold is_digit; apply andb_true_iff; rewrite !Z.leb_le; lia. }
  unfold get at 1. rewrite Hc. cbn [bind]. destruct (decide (c <> 125 /\ c <> 58)) as [|Hcc]; [done|]. cbn [bind on_arg_id].
  change (check_arg_id 0) with (Ok (-1)). cbn [bind]. rewrite decide_True by done. unfold get at 1. rewrite Hc. cbn [bind].
  assert (Hget : get_arg A max_int = Throw).
  { unfold get_arg. rewrite decide_False; [done|]. unfold max_int, int_max in *. lia. }
  destruct (decide (c = 125)); [unfold on_replacement_field; by rewrite Hget|].
  destruct (decide (c = 58)); [|done]. unfold on_format_specs. by rewrite Hget.
Qed.
Print Assumptions C123_index_too_large.
(** Zeros before a precision count: with more than ten digits it is an error, although the number is small. *)
Theorem C123_zeros_refuted E A n t zeros : locale_ok E -> arguments_ok A -> numeral 10 false n t -> (10 < zeros + length t)%nat ->
  vformat E A (lit "{:." ++ replicate zeros 48 ++ t ++ lit "}") = Throw.
Proof.
  intros [HE Hsep] HA (ds & -> & Hf & Hn & Hne & Hz) Hlong. rewrite fmap_length in Hlong.
  set (ds' := replicate zeros 0 ++ ds).
  assert (Hf' : Forall (fun d => 0 <= d < 10) ds') by (apply Forall_app; split; [by apply Forall_replicate|done]).
  assert (Hne' : ds' <> []) by (by destruct zeros, ds).
  assert (Heq : replicate zeros 48 ++ (digit_char false <$> ds) ++ lit "}" = (digit_char false <$> ds') ++ [125]).
  { unfold ds'. rewrite fmap_app, fmap_replicate, <- app_assoc. done. }
  rewrite Heq. clear Heq. set (s := lit "{:." ++ _ ++ _).
  assert (Hs0 : drop 0 s = 123 :: 58 :: 46 :: (digit_char false <$> ds') ++ [125]) by done. pose proof (drop_next _ _ _ _ Hs0) as Hs1.
  pose proof (drop_next _ _ _ _ Hs1) as Hs2. pose proof (drop_next _ _ _ _ Hs2) as Hs3.
  pose proof (parse_nonnegative_int_ok s 3 (-1) _ [125] Hs3 Hf' Hne' ltac:(by intros ? [= <-])) as Hpn.
  unfold parsed_number in Hpn. rewrite decide_False in Hpn by (unfold ds'; rewrite app_length, replicate_length; lia).
  destruct ds' as [|d l] eqn:Hds'; [done|]. apply Forall_cons in Hf' as [Hd _]. rewrite fmap_cons in Hs3. cbn [app] in Hs3. rewrite digit_char_eq in Hs3 by done.
  pose proof (drop_lt _ _ _ _ Hs3) as Hlen.
  assert (Hspecs : forall t next, parse_format_specs s 2 t next = Throw).
  { intros t next. unfold parse_format_specs. rewrite decide_False by lia. rewrite (get_head _ _ _ _ Hs2). cbn [bind]. rewrite decide_True by lia.
    rewrite (get_head _ _ _ _ Hs3). cbn [bind]. rewrite decide_True by (unfold parse_align; by rewrite !decide_False by lia).
    rewrite loop_S. unfold specs_step. rewrite !decide_False by lia. change (is_digit 46 || (46 =? 123)) with false. cbv iota. rewrite decide_True by done.
    destruct t; try done; change (enter_state 0 6 true) with (Ok 6%nat); cbn [bind]; unfold parse_precision; rewrite decide_False by lia;
      rewrite (get_head _ _ _ _ Hs3); cbn [bind]; rewrite decide_False by lia; unfold parse_dynamic_spec; rewrite (get_head _ _ _ _ Hs3); cbn [bind];
      replace (is_digit (48 + d)) with true by (unfold is_digit; symmetry; apply andb_true_iff; rewrite !Z.leb_le; lia);
      rewrite Hpn; cbn [bind]; by rewrite decide_False by lia. }
  pose proof (arguments_ok_args A HA) as HA'. unfold vformat.
  apply vformat_to_ok; [by apply (progress_ok seq_custom custom_value_ok E HE Hsep); [apply seq_custom_safe|]|].
  apply (parses_error _ _ 0 0 [] Throw); [done| |done].
  unfold parse_replacement_field, replacement_field. rewrite decide_False by lia. rewrite (get_head _ _ _ _ Hs1). cbn [bind]. rewrite !decide_False by done.
  unfold parse_arg_id. rewrite (get_head _ _ _ _ Hs1). cbn [bind]. rewrite decide_False by lia. cbn [bind on_arg_id].
  change (next_arg_id 0) with (Ok (0, 1)). cbn [bind]. rewrite decide_True by lia. rewrite (get_head _ _ _ _ Hs1). cbn [bind]. rewrite decide_False, decide_True by done.
  unfold on_format_specs. pose proof (get_arg_safe custom_value_ok A 0 HA') as Ha.
  destruct (get_arg A 0) as [a| | |]; cbn [bind safe] in *; try done.
  destruct a as [v|c]; [by rewrite Hspecs|].
  pose proof (seq_custom_safe E HE Hsep A c s 2%nat 1 [] HA' Ha ltac:(lia)) as Hc. destruct c as [j|ty vs]; cbn [seq_custom] in *.
  { unfold join_custom. by rewrite Hspecs. }
  destruct (vformat_to join_custom E _ _ []) as [o| | |]; cbn [bind safe] in *; try done.
Qed.
Print Assumptions C123_zeros_refuted.
Example C123_example :
  vformat ex_env ex_args (lit "{1:.3}") = Ok (lit "abc") /\ vformat ex_env ex_args (lit "{1:.0000000003}") = Ok (lit "abc")
  /\ vformat ex_env ex_args (lit "{1:.00000000003}") = Throw /\ vformat ex_env ex_args (lit "{1:2147483648}") = Throw
  /\ vformat ex_env ex_args (lit "{2147483648}") = Throw.
Proof. vm_compute. auto 10. Qed.
