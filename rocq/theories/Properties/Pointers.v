(** Pointers and C strings in format strings (fmt/core.h, fmt/format.h): properties C165 and C166. *)
From Coq Require Import Strings.String.
From Verif Require Import Base.Cpp Model.Numeric Model.FmtInt Model.Utf8 Model.Escape Model.Format Model.FormatCheck.
From Verif Require Import Spec.FormatSpec Spec.Utf8Spec Spec.EscapeSpec Spec.FieldSpec Spec.FloatField Spec.TemplateSpec.
From Verif Require Import Proofs.Utf8Decode Proofs.FormatWrite Proofs.FormatValue Proofs.FormatSafe Proofs.FormatParse Proofs.TemplateProofs Proofs.TemplateConverse Proofs.FloatFormat Proofs.ShowsUnique.
From Verif Require Import Properties.Format Properties.FormatCheck Properties.Grammar Properties.FloatTemplate.
Local Open Scope Z_scope.

(** ** C165: a pointer is its address *)

(** In hexadecimal, after 0x, in the field. *)
Theorem C165_pointer_field E a f s : locale_ok E -> 0 <= a < 2 ^ 64 -> template_text [Show NextArg (Some f)] s -> admits KPointer f -> literal f ->
  exists text, pointer_shows f (literal_width f) a text /\ vformat E (Args [AScalar (VPtr a)] []) s = Ok text.
Proof.
  intros HE Ha Ht Hadm Hl. set (A := Args [AScalar (VPtr a)] []).
  assert (HA : arguments_ok A) by (by apply Forall_singleton). destruct (literal_counts f (args_of A) Hl) as [Hcw Hcp].
  assert (Hv0 : finds (args_of A) (ArgAt 0) (One (OPointer a))) by (by constructor).
  destruct (C119_format E A s _ HE HA Ht) as (texts & Htexts & ->).
  { split.
    - left. destruct Hl as [Hnw Hnp]. unfold asked, asked_by, asked_by_count. cbn. constructor; [done|]. rewrite app_nil_r. apply Forall_app.
      split; [destruct (f_width f) as [|?|i|]; [apply Forall_nil_2..|by destruct (Hnw i)|apply Forall_nil_2]|destruct (f_precision f) as [|?|i|]; [apply Forall_nil_2..|by destruct (Hnp i)|apply Forall_nil_2]].
    - rewrite (literal_index f Hl). constructor; [|constructor]. exists (One (OPointer a)). split; [done|]. split; [done|]. split; [split; by eexists|done]. }
  rewrite (literal_index f Hl) in Htexts.
  inversion Htexts as [|i text is texts' Hi Hnil]; subst i is texts. inversion Hnil; subst texts'.
  inversion Hi as [|w0 fo v text' Hv Hsh]; subst. rewrite (finds_unique _ _ _ _ Hv Hv0) in Hsh.
  inversion Hsh as [|v' f' wo po text' Hwo Hpo Hone'| | |]; subst. exists text. split; [|cbn; by rewrite app_nil_r].
  cbn in Hone'. rewrite (counts_unique _ _ _ _ Hwo Hcw) in Hone'. unfold literal_width. by destruct (f_width f).
Qed.
Print Assumptions C165_pointer_field.
Theorem C165_pointer E a : locale_ok E -> 0 <= a < 2 ^ 64 ->
  exists digits, numeral 16 false a digits /\ vformat E (Args [AScalar (VPtr a)] []) (lit "{}") = Ok (lit "0x" ++ digits).
Proof.
  intros HE Ha. set (A := Args [AScalar (VPtr a)] []). assert (HA : arguments_ok A) by (by apply Forall_singleton).
  assert (Hv0 : finds (args_of A) (ArgAt 0) (One (OPointer a))) by (by constructor).
  assert (Ht : template_text [Show NextArg None] (lit "{}")) by (apply (template_show NextArg [] [] []); constructor).
  destruct (C119_format E A _ _ HE HA Ht) as (texts & Htexts & ->).
  { split; [left; by repeat constructor|]. constructor; [by eexists|constructor]. }
  inversion Htexts as [|i text is texts' Hi Hnil]; subst i is texts. inversion Hnil; subst texts'.
  inversion Hi as [|w0 fo v text' Hv Hsh]; subst. rewrite (finds_unique _ _ _ _ Hv Hv0) in Hsh.
  inversion Hsh as [v' text' Hp| | | |]; subst. destruct Hp as (ds & Hds & ->). exists ds. split; [done|]. cbn [concat]. by rewrite app_nil_r.
Qed.
Print Assumptions C165_pointer.
(** No two addresses are written alike. *)
Theorem C165_tells_apart E a b : locale_ok E -> 0 <= a < 2 ^ 64 -> 0 <= b < 2 ^ 64 ->
  vformat E (Args [AScalar (VPtr a)] []) (lit "{}") = vformat E (Args [AScalar (VPtr b)] []) (lit "{}") -> a = b.
Proof.
  intros HE Ha Hb. destruct (C165_pointer E a HE Ha) as (ds & Hds & ->), (C165_pointer E b HE Hb) as (ds' & Hds' & ->).
  intros [= ->]. by eapply (numeral_inj false 16).
Qed.
Print Assumptions C165_tells_apart.
Example C165_example :
  let f := Field [42] (Some PlCenter) None false false (Number 12) NoCount false (Some AsPointer) in
  locale_ok ex_env /\ template_text [Show NextArg (Some f)] (lit "{:*^12p}") /\ admits KPointer f /\ literal f /\
  vformat ex_env (Args [AScalar (VPtr 0x7ffdeadbeef)] []) (lit "{:*^15p}") = Ok (lit "*0x7ffdeadbeef*") /\
  vformat ex_env (Args [AScalar (VPtr 0x2a)] []) (lit "{:8}|{:<8}|{:*^8p}") = Throw /\
  vformat ex_env (Args [AScalar (VPtr 0x2a)] []) (lit "{0:8}|{0:<8}|{0:*^8p}|{0}") = Ok (lit "    0x2a|0x2a    |**0x2a**|0x2a") /\
  vformat ex_env (Args [AScalar (VPtr 0)] []) (lit "{}") = Ok (lit "0x0") /\
  vformat ex_env (Args [AScalar (VPtr 7)] []) (lit "{:x}") = Throw /\ vformat ex_env (Args [AScalar (VPtr 7)] []) (lit "{:04}") = Throw /\
  vformat ex_env (Args [AScalar (VPtr 7)] []) (lit "{:#}") = Throw /\ vformat ex_env (Args [AScalar (VInt int32 7)] []) (lit "{:p}") = Throw.
Proof.
  intros f. split; [done|]. split; [|split; [|split; [|vm_compute; split_and!; reflexivity]]].
  - apply (template_field NextArg [] f (lit "*^12p") [] []); [done|constructor| | |constructor].
    + split; [|split_and!; done || (cbn; unfold int_max; lia)]. right. split; [done|]. exists 42, []. split_and!; done || lia.
    + refine (field_text_intro f (lit "12") [] _ _); [|constructor]. constructor.
      exists [1; 2]. split; [by vm_compute|]. split_and!; try done. repeat constructor; lia.
  - unfold admits. cbn. split_and!; done.
  - done.
Qed.

(** ** C166: a C string is the string of its chars *)

(** The chars before the first 0. Elements of sequences and joins count too. *)
Inductive spelled : scalar -> scalar -> Prop :=
| spelled_cstring a s rest : a <> 0 -> Forall (fun c => c <> 0) s -> spelled (VCstr a (s ++ 0 :: rest)) (VStr s)
| spelled_same v : spelled v v.
Definition spelled_type (t : ty) : ty := match t with TCstr => TStr | _ => t end.
Inductive spelled_arg : arg custom_value -> arg custom_value -> Prop :=
| spelled_scalar v v' : spelled v v' -> spelled_arg (AScalar v) (AScalar v')
| spelled_seq t vs vs' : Forall2 spelled vs vs' -> spelled_arg (ACustom (CSeq t vs)) (ACustom (CSeq (spelled_type t) vs'))
| spelled_join t vs vs' sep : Forall2 spelled vs vs' -> spelled_arg (ACustom (CJoin (Join t vs sep))) (ACustom (CJoin (Join (spelled_type t) vs' sep))).
Definition spelled_args (A A' : args custom_value) : Prop := Forall2 spelled_arg (argv A) (argv A') /\ names A' = names A.
(** An item does not ask for the address. *)
Definition no_pointer (i : item) : Prop := match i with Show _ (Some f) => f_type f <> Some AsPointer | _ => True end.

Definition one_like (o o' : one) : Prop := o' = o \/ exists a s, a <> 0 /\ o = OCstring a s /\ o' = OString s.
Definition kind_like (k k' : kind) : Prop := k' = k \/ k = KCstring /\ k' = KString.
Inductive value_like : value -> value -> Prop :=
| like_one o o' : one_like o o' -> value_like (One o) (One o')
| like_seq k k' vs vs' : kind_like k k' -> Forall2 one_like vs vs' -> value_like (Sequence k vs) (Sequence k' vs')
| like_join k k' vs vs' sep : kind_like k k' -> Forall2 one_like vs vs' -> value_like (Joined k vs sep) (Joined k' vs' sep).

Lemma spelled_like v v' : spelled v v' -> one_like (one_of v) (one_of v').
Proof. intros [a s rest Ha Hs|]; [|by left]. right. exists a, s. split; [done|]. cbn. unfold until_zero. by rewrite c_string_ok. Qed.
Lemma spelled_kind t : kind_like (kind_of_ty t) (kind_of_ty (spelled_type t)).
Proof. destruct t; first [by left|by right]. Qed.
Lemma spelled_likes vs vs' : Forall2 spelled vs vs' -> Forall2 one_like (one_of <$> vs) (one_of <$> vs').
Proof. induction 1; cbn; constructor; [by apply spelled_like|done]. Qed.
Lemma spelled_value x x' : spelled_arg x x' -> value_like (value_of x) (value_of x').
Proof. intros [v v' H|t vs vs' H|t vs vs' sp H]; constructor; try apply spelled_kind; [by apply spelled_like|by apply spelled_likes..]. Qed.
Lemma kind_of_like o o' : one_like o o' -> kind_like (kind_of o) (kind_of o').
Proof. intros [->|(a & s & Hnz & -> & ->)]; [by left|by right]. Qed.

Section like.
  Context (B B' : arguments) (Hval : Forall2 value_like (a_values B) (a_values B')) (Hnames : a_names B' = a_names B).
  Lemma finds_like w v : finds B w v -> exists v', finds B' w v' /\ value_like v v'.
  Proof using All.
    induction 1 as [i v Hi Hv|n k i v Hk Hfirst H IH].
    - destruct (Forall2_lookup_l _ _ _ _ _ Hval Hv) as (v' & Hv' & Hl). exists v'. split; [by constructor|done].
    - destruct IH as (v' & Hv' & Hl). exists v'. split; [|done]. apply (finds_named _ _ k i); rewrite ?Hnames; done.
  Qed.
  Lemma finds_back w v' : finds B' w v' -> exists v, finds B w v /\ value_like v v'.
  Proof using All.
    induction 1 as [i v Hi Hv|n k i v Hk Hfirst H IH].
    - destruct (Forall2_lookup_r _ _ _ _ _ Hval Hv) as (v' & Hv' & Hl). exists v'. split; [by constructor|done].
    - destruct IH as (v' & Hv' & Hl). exists v'. split; [|done]. rewrite Hnames in Hk. setoid_rewrite Hnames in Hfirst. apply (finds_named _ _ k i); done.
  Qed.
  Lemma counts_like c o : counts B c o <-> counts B' c o.
  Proof using All.
    split; intros [| | |w sg z Hw Hz]; try constructor.
    - destruct (finds_like _ _ Hw) as (v' & Hv' & Hl). inversion Hl as [x y [->|(a & s & ? & ? & ?)]| |]; subst; [by econstructor|done].
    - destruct (finds_back _ _ Hw) as (v' & Hv' & Hl). inversion Hl as [x y [Hx|(a & s & ? & ? & ?)]| |]; subst; [by econstructor|done].
  Qed.
  Lemma admits_like k k' f : kind_like k k' -> f_type f <> Some AsPointer -> admits k f <-> admits k' f.
  Proof using Type.
    intros [->|[-> ->]] Hf; [done|]. unfold admits.
    assert (Hty : admits_type KCstring (f_type f) <-> admits_type KString (f_type f)) by (destruct (f_type f) as [[]|]; done).
    rewrite Hty. cbn. intuition congruence.
  Qed.
  Lemma counts_ok_like f : counts_ok B f <-> counts_ok B' f.
  Proof using All. unfold counts_ok. by setoid_rewrite counts_like. Qed.
  Lemma one_fits_like f o o' : one_like o o' -> one_fits B f o <-> one_fits B' f o'.
  Proof using All. intros [->|(a & s & Hnz & -> & ->)]; [|by cbn; split].
    destruct o; try done. cbn. by setoid_rewrite counts_like. Qed.
  Lemma value_fits_like v v' fo : value_like v v' -> (forall f, fo = Some f -> f_type f <> Some AsPointer) -> value_fits B v fo <-> value_fits B' v' fo.
  Proof using All.
    intros Hl Hf. assert (Hpl : forall o o', one_like o o' -> plain_fits o <-> plain_fits o') by (by intros o o' [->|(a & s & Hnz & -> & ->)]).
    assert (Hpls : forall vs vs', Forall2 one_like vs vs' -> Forall plain_fits vs <-> Forall plain_fits vs').
    { induction 1 as [|o o' vs vs' Ho Hv IH]; [done|]. by rewrite !Forall_cons, IH, (Hpl _ _ Ho). }
    destruct fo as [f|]; [|destruct Hl; cbn; auto]. specialize (Hf f eq_refl). destruct Hl as [o o' H|k k' vs vs' Hk H|k k' vs vs' sp Hk H]; cbn.
    - by rewrite (admits_like _ _ f (kind_of_like _ _ H) Hf), counts_ok_like, (one_fits_like f _ _ H).
    - by rewrite (Hpls _ _ H).
    - rewrite (admits_like _ _ f Hk Hf), counts_ok_like.
      assert (Hn : vs <> [] <-> vs' <> []) by (by destruct H). rewrite Hn.
      assert (Ha : Forall (one_fits B f) vs <-> Forall (one_fits B' f) vs').
      { clear -H Hval Hnames. induction H; [done|]. by rewrite !Forall_cons, IHForall2, (one_fits_like f _ _ H). }
      by rewrite Ha.
  Qed.
  Context (L : locale) (cols : list Z -> Z -> Prop) (debug_char : Z -> list Z -> Prop) (debug_string : list Z -> list Z -> Prop).
  Context (float_plain : bool -> Z -> list Z -> Prop) (float_text : field -> Z -> option Z -> bool -> Z -> list Z -> Prop).
  Notation shows B := (value_shows L cols debug_char debug_string float_plain float_text B).
  Lemma plain_like o o' t : one_like o o' -> plain_shows float_plain o t -> plain_shows float_plain o' t.
  Proof using Type. by intros [->|(a & s & Hnz & -> & ->)]. Qed.
  Lemma one_shows_like f w p o o' t : one_like o o' -> f_type f <> Some AsPointer ->
    one_shows L cols debug_char debug_string float_text f w p o t -> one_shows L cols debug_char debug_string float_text f w p o' t.
  Proof using Type.
    intros [->|(a & s & Hnz & -> & ->)] Hf; [done|]. cbn. unfold cstring_shows. intros (d & Hd & H). exists d. split; [done|]. by destruct (f_type f) as [[]|].
  Qed.
  Lemma plains_like vs vs' texts : Forall2 one_like vs vs' -> Forall2 (plain_shows float_plain) vs texts -> Forall2 (plain_shows float_plain) vs' texts.
  Proof using Type. intros H. revert texts. induction H; intros texts Ht; inversion Ht; subst; constructor; [by eapply plain_like|by apply IHForall2]. Qed.
  Lemma value_shows_like v v' fo t : value_like v v' -> (forall f, fo = Some f -> f_type f <> Some AsPointer) -> shows B v fo t -> shows B' v' fo t.
  Proof using All.
    intros Hl Hf H. destruct H as [o t H|o f w p t Hw Hp H|k vs fo texts H|k vs sp texts H|k vs sp f texts H]; inversion Hl; subst.
    - constructor. by eapply plain_like.
    - econstructor; [by apply counts_like|by apply counts_like|]. eapply one_shows_like; [done|by apply Hf|done].
    - constructor. by eapply plains_like.
    - constructor. by eapply plains_like.
    - constructor. specialize (Hf f eq_refl). clear Hl. revert texts H.
      match goal with Hx : Forall2 one_like _ _ |- _ => rename Hx into Hv end.
      induction Hv as [|o o' vs vs' Ho Hv IH]; intros texts Ht; inversion Ht as [|? t ? ts' Hx Hr]; subst; constructor; [|by apply IH].
      destruct Hx as (w & p & Hw & Hp & H). exists w, p. split_and!; [by apply counts_like|by apply counts_like|by eapply one_shows_like].
  Qed.
End like.

Lemma index_no_pointer n ts : Forall no_pointer ts -> Forall no_pointer (index n ts).
Proof.
  intros H. revert n. induction H as [|i ts Hi _ IH]; intros n; [constructor|]. cbn. destruct (index_item n i) as [i' n'] eqn:Hx. constructor; [|done].
  destruct i as [c|w [f|]]; cbn in Hx.
  - by injection Hx as <- _.
  - destruct (index_which n w) as [w' n1]. unfold index_field in Hx. destruct (index_count n1 (f_width f)) as [w2 n2], (index_count n2 (f_precision f)) as [p2 n3]. by injection Hx as <- _.
  - destruct (index_which n w) as [w' n1]. by injection Hx as <- _.
Qed.

(** Where no address is asked for, C strings give what the strings of their chars give: the same text, or an error. *)
Theorem C166_as_string E A A' s ts : locale_ok E -> arguments_ok A -> arguments_ok A' -> spelled_args A A' ->
  template_text ts s -> Forall no_pointer ts -> vformat E A s = vformat E A' s.
Proof.
  intros HE HA HA' [Hsp Hn] Ht Hnp.
  assert (Hval : Forall2 value_like (a_values (args_of A)) (a_values (args_of A'))).
  { cbn. clear -Hsp. induction Hsp; cbn; constructor; [by apply spelled_value|done]. }
  assert (Hnames : a_names (args_of A') = a_names (args_of A)) by done.
  apply (index_no_pointer 0) in Hnp.
    assert (Hfit : fitting A ts <-> fitting A' ts).
    { unfold fitting. assert (H : Forall (item_fits (args_of A)) (index 0 ts) <-> Forall (item_fits (args_of A')) (index 0 ts)); [|by rewrite H].
      induction Hnp as [|i l Hi _ IH]; [done|]. rewrite !Forall_cons, IH. destruct i as [c|w fo]; [done|]. cbn.
      assert (Hf : forall f, fo = Some f -> f_type f <> Some AsPointer) by (by intros f ->).
      assert (H : (exists v, finds (args_of A) w v /\ value_fits (args_of A) v fo) <-> (exists v, finds (args_of A') w v /\ value_fits (args_of A') v fo)); [|by rewrite H].
      split; intros (v & Hv & Hfv).
      - destruct (finds_like _ _ Hval Hnames _ _ Hv) as (v' & Hv' & Hl). exists v'. split; [done|]. by apply (value_fits_like _ _ Hval Hnames v v' fo Hl Hf).
      - destruct (finds_back _ _ Hval Hnames _ _ Hv) as (v' & Hv' & Hl). exists v'. split; [done|]. by apply (value_fits_like _ _ Hval Hnames v' v fo Hl Hf). }
    destruct (format_cases E A s ts HE HA Ht) as [(Hf & texts & Htx & Hr)|[Hf Hr]]; rewrite Hr; symmetry.
    - apply (C119_format_iff E A' s ts _ HE HA' Ht). split; [by apply Hfit|]. exists texts. split; [|done].
      clear -Htx Hnp Hval Hnames. induction Htx as [|i t l texts Hi Htx IH]; [constructor|]. apply Forall_cons in Hnp as [H1 H2]. constructor; [|by apply IH].
      destruct Hi as [c|w fo v t Hv Hsh]; [constructor|]. destruct (finds_like _ _ Hval Hnames _ _ Hv) as (v' & Hv' & Hl). econstructor; [done|].
      eapply (value_shows_like _ _ Hval Hnames); [done| |done]. by intros f ->.
    - apply (C121_rejects_iff E A' s ts HE HA' Ht). by rewrite <- Hfit.
Qed.
Print Assumptions C166_as_string.
(** A null C string, alone or among the elements of a sequence or a join, is refused wherever its address is not asked for. *)
Inductive has_null : value -> Prop :=
| null_one s : has_null (One (OCstring 0 s))
| null_element k vs s : In (OCstring 0 s) vs -> has_null (Sequence k vs)
| null_joined k vs sep s : In (OCstring 0 s) vs -> has_null (Joined k vs sep).
Theorem C166_null E A s ts w fo v : locale_ok E -> arguments_ok A -> template_text ts s ->
  In (Show w fo) (index 0 ts) -> finds (args_of A) w v -> has_null v -> (forall f, fo = Some f -> f_type f <> Some AsPointer) ->
  vformat E A s = Throw.
Proof.
  intros HE HA Ht Hin Hw Hnull Hfo. apply (C121_rejects_iff E A s ts HE HA Ht). intros [_ Hfit].
  rewrite Forall_forall in Hfit. apply elem_of_list_In in Hin. destruct (Hfit _ Hin) as (v' & Hw' & Hv). rewrite (finds_unique _ _ _ _ Hw' Hw) in Hv.
  assert (Hpl : forall vs x, In (OCstring 0 x) vs -> ~ Forall plain_fits vs).
  { intros vs x Hx Hall. rewrite Forall_forall in Hall. apply elem_of_list_In in Hx. by apply (Hall _ Hx). }
  destruct fo as [f|]; [specialize (Hfo f eq_refl)|]; destruct Hnull as [x|k vs x Hx|k vs sep x Hx]; cbn in Hv.
  - destruct Hv as (_ & _ & Hv). by apply Hfo, Hv.
  - destruct Hv as [_ Hv]. by eapply Hpl.
  - destruct Hv as (_ & _ & Hv). rewrite Forall_forall in Hv. apply elem_of_list_In in Hx. by apply Hfo, (Hv _ Hx).
  - done.
  - by eapply Hpl.
  - by eapply Hpl.
Qed.
Print Assumptions C166_null.
Example C166_null_example :
  let A := Args [AScalar (VStr (lit "a")); ACustom (CJoin (Join TCstr [VCstr 8 [120; 0]; VCstr 0 []] (lit "+")))] [] in
  arguments_ok A /\ template_text [Text 45; Show (ArgAt 1) None] (lit "-{1}") /\
  finds (args_of A) (ArgAt 1) (Joined KCstring [OCstring 8 [120]; OCstring 0 []] (lit "+")) /\
  has_null (Joined KCstring [OCstring 8 [120]; OCstring 0 []] (lit "+")) /\ vformat ex_env A (lit "-{1}") = Throw /\
  vformat ex_env A (lit "-{1:p}") = Ok (lit "-0x8+0x0").
Proof.
  intros A. split; [|split; [|split; [|split; [|by vm_compute; split]]]].
  - apply Forall_cons_2; [|apply Forall_singleton, Forall_cons_2; [|apply Forall_singleton]].
    + by repeat constructor.
    + split; [|done]. split; [done|]. split; [by repeat constructor|]. cbn. tauto.
    + split; [|done]. split; [done|]. split; [constructor|done].
  - apply template_char; [done|done|]. apply (template_show (ArgAt 1) [49] [] []); [by cbn; unfold int_max| |constructor].
    constructor. exists [1]. split; [by vm_compute|]. split_and!; try done. repeat constructor; lia.
  - by constructor.
  - apply (null_joined _ _ _ []). cbn. tauto.
Qed.
(** So it is in any first argument, and the check of the format string cannot tell, there is. *)
Theorem C166_null_refuted E chars others names' :
  let A := Args (AScalar (VCstr 0 chars) :: others) names' in
  vformat E A (lit "{}") = Throw /\ vformat E A (lit "{:s}") = Throw /\ vformat E A (lit "{:?}") = Throw /\ vformat E A (lit "{0:}") = Throw /\
  check_format_string (scalars [TCstr]) (lit "{}") = Ok tt /\ check_format_string (scalars [TCstr]) (lit "{:s}") = Ok tt.
Proof. destruct E as [room gr sp pt]. split_and!; reflexivity. Qed.
Print Assumptions C166_null_refuted.
(** One without a 0 is read past the end of its array. *)
Theorem C166_unterminated_refuted E a s : a <> 0 -> Forall (fun c => c <> 0) s ->
  vformat E (Args [AScalar (VCstr a s)] []) (lit "{}") = UB OutOfBounds.
Proof.
  intros Ha Hs. assert (H : c_string s = UB OutOfBounds).
  { clear Ha. induction Hs as [|c s Hc _ IH]; [done|]. cbn. by rewrite decide_False, IH. }
  change (write_cstring_default [] a s = UB OutOfBounds). unfold write_cstring_default. rewrite decide_True by done. by rewrite H.
Qed.
Print Assumptions C166_unterminated_refuted.
Example C166_example :
  let A := Args [AScalar (VCstr 0x1000 (lit "abc" ++ 0 :: lit "def")); AScalar (VInt int32 6);
    ACustom (CJoin (Join TCstr [VCstr 8 [120; 0]; VCstr 16 [121; 0; 122]] (lit "+")))] [] in
  let A' := Args [AScalar (VStr (lit "abc")); AScalar (VInt int32 6); ACustom (CJoin (Join TStr [VStr [120]; VStr [121]] (lit "+")))] [] in
  arguments_ok A /\ arguments_ok A' /\ spelled_args A A' /\
  (let ts := [Show (ArgAt 0) (Some (Field [42] (Some PlCenter) None false false (Number 12) NoCount false (Some AsString))); Text 33; Show (ArgAt 2) None] in
    template_text ts (lit "{0:*^12s}!{2}") /\ Forall no_pointer ts) /\
  vformat ex_env A (lit "{0:*^{1}.2} {0:?} {0:s} {2:_>2}") = Ok (lit "**ab** ""abc"" abc _x+_y") /\
  vformat ex_env A' (lit "{0:*^{1}.2} {0:?} {0:s} {2:_>2}") = Ok (lit "**ab** ""abc"" abc _x+_y") /\
  vformat ex_env A (lit "{0:p} {0:>8p} {2:p}") = Ok (lit "0x1000   0x1000 0x8+0x10") /\ vformat ex_env A' (lit "{0:p}") = Throw /\
  vformat ex_env (Args [AScalar (VCstr 0 [])] []) (lit "{:p}") = Ok (lit "0x0").
Proof.
  assert (Hb : forall l, forallb (fun c => (0 <=? c) && (c <=? 255)) l = true -> Forall is_byte l).
  { intros l Hl. apply Forall_forall. intros x Hx. apply elem_of_list_In in Hx. rewrite forallb_forall in Hl. specialize (Hl x Hx). unfold is_byte. lia. }
  assert (Hc : forall a l, 0 <= a < 2 ^ 64 -> forallb (fun c => (0 <=? c) && (c <=? 255)) l = true -> In 0 l -> scalar_ok (VCstr a l)).
  { intros a l Ha Hl H0. split; [done|]. split; [by apply Hb|done]. }
  intros A A'. split; [|split; [|split; [|split; [|by vm_compute; split_and!]]]].
  - unfold A, arguments_ok. apply Forall_cons_2; [apply Hc; [done|done|cbn; tauto]|]. apply Forall_cons_2; [done|]. apply Forall_singleton.
    apply Forall_cons_2; [|apply Forall_singleton]; (split; [|done]); (apply Hc; [done|done|cbn; tauto]).
  - unfold A', arguments_ok. apply Forall_cons_2; [by apply Hb|]. apply Forall_cons_2; [done|]. apply Forall_singleton.
    apply Forall_cons_2; [|apply Forall_singleton]; (split; [|done]); by apply Hb.
  - split; [|done]. constructor; [|constructor; [|constructor; [|constructor]]].
    + constructor. apply (spelled_cstring 0x1000 (lit "abc") (lit "def")); [done|]. repeat constructor; done.
    + constructor. constructor.
    + apply (spelled_join TCstr). constructor; [|constructor; [|constructor]].
      * apply (spelled_cstring 8 [120] []); [done|]. repeat constructor; done.
      * apply (spelled_cstring 16 [121] [122]); [done|]. repeat constructor; done.
  - split; [|by repeat constructor].
    apply (template_field (ArgAt 0) [48] _ (lit "*^12s") [Text 33; Show (ArgAt 2) None] (lit "!{2}")); [done|..].
    + constructor. exists [0]. split; [by vm_compute|]. split_and!; try done. repeat constructor; lia.
    + split; [|split_and!; done || (cbn; unfold int_max; lia)]. right. split; [done|]. exists 42, []. split_and!; done || lia.
    + refine (field_text_intro _ (lit "12") [] _ _); [|constructor]. constructor.
      exists [1; 2]. split; [by vm_compute|]. split_and!; try done. repeat constructor; lia.
    + apply template_char; [done|done|]. apply (template_show (ArgAt 2) [50] [] []); [by cbn; unfold int_max| |constructor].
      constructor. exists [2]. split; [by vm_compute|]. split_and!; try done. repeat constructor; lia.
Qed.
