(** Format strings give the text of their items, or are refused. *)
From Verif Require Import Base.Cpp Model.Numeric Model.FmtInt Model.Utf8 Model.Escape Model.Dragonbox Model.FloatLayout Model.FloatDigits Model.Format.
From Verif Require Import Spec.FormatSpec Spec.Utf8Spec Spec.EscapeSpec Spec.FieldSpec Spec.TemplateSpec.
From Verif Require Spec.FloatField.
From Verif Require Import Proofs.FmtIntProofs Proofs.Utf8Decode Proofs.Utf8Proofs Proofs.EscapeProofs Proofs.FormatWrite Proofs.GroupingProofs.
From Verif Require Import Proofs.FormatValue Proofs.FormatScan Proofs.FormatSafe Proofs.FormatParse.
Set Default Proof Using "Type".
Local Open Scope Z_scope.
Ltac Zify.zify_post_hook ::= idtac.

(** ** The model's values as the specification has them *)

(** A C string, without what follows it. *)
Definition until_zero (chars : list Z) : list Z := match c_string chars with Ok s => s | _ => [] end.

Definition one_of (v : scalar) : one :=
  match v with VInt t z => OInt (signed t) z | VBool b => OBool b | VChar c => OChar c | VStr s => OString s
  | VFloat b => OFloat false b | VDouble b => OFloat true b
  | VCstr a chars => OCstring a (until_zero chars) | VPtr a => OPointer a end.
Definition value_of (a : arg custom_value) : value :=
  match a with
  | AScalar v => One (one_of v)
  | ACustom (CJoin j) => Joined (kind_of_ty (j_type j)) (one_of <$> j_elems j) (j_sep j)
  | ACustom (CSeq t elems) => Sequence (kind_of_ty t) (one_of <$> elems)
  end.
Definition args_of (A : args custom_value) : arguments := Given (value_of <$> argv A) (names A).

Lemma kind_of_one v : kind_of (one_of v) = kind_of_ty (type_of v).
Proof. destruct v as [[b []] z|b|c|s|b|b|a chars|a]; done. Qed.

(** ** Numbering *)

Definition numbered (next : Z) (w : which) : option Z :=
  match w with
  | NextArg => if decide (next < 0) then None else Some (next + 1)
  | ArgAt _ => if decide (next > 0) then None else Some (-1)
  | Named _ => Some next
  end.
Fixpoint all_numbered (next : Z) (ws : list which) : option Z :=
  match ws with [] => Some next | w :: ws => next ← numbered next w; all_numbered next ws end.
Lemma all_numbered_app next ws ws' : all_numbered next (ws ++ ws') = next ← all_numbered next ws; all_numbered next ws'.
Proof. revert next. induction ws as [|w ws IH]; intros next; [done|]. cbn. destruct (numbered next w); cbn; [apply IH|done]. Qed.

Lemma all_numbered_auto ws next : 0 < next ->
  (exists n, all_numbered next ws = Some n) <-> Forall (fun w => forall i, w <> ArgAt i) ws.
Proof.
  revert next. induction ws as [|w ws IH]; intros next Hn; [cbn; split; [constructor|eauto]|].
  destruct w as [|i|name]; cbn.
  - rewrite decide_False by lia. cbn. rewrite IH by lia. rewrite Forall_cons. split; [intros H; split; [done|exact H]|intros [_ H]; exact H].
  - rewrite decide_True by lia. cbn. split; [intros [n H]; done|]. intros [H _]%Forall_cons. by destruct (H i).
  - rewrite IH by lia. rewrite Forall_cons. split; [intros H; split; [done|exact H]|intros [_ H]; exact H].
Qed.
Lemma all_numbered_manual ws next : next < 0 ->
  (exists n, all_numbered next ws = Some n) <-> Forall (fun w => w <> NextArg) ws.
Proof.
  revert next. induction ws as [|w ws IH]; intros next Hn; [cbn; split; [constructor|eauto]|].
  destruct w as [|i|name]; cbn.
  - rewrite decide_True by lia. cbn. split; [intros [n H]; done|]. intros [H _]%Forall_cons. done.
  - rewrite decide_False by lia. cbn. rewrite IH by lia. rewrite Forall_cons. split; [intros H; split; [done|exact H]|intros [_ H]; exact H].
  - rewrite IH by lia. rewrite Forall_cons. split; [intros H; split; [done|exact H]|intros [_ H]; exact H].
Qed.
Lemma all_numbered_start ws : (exists n, all_numbered 0 ws = Some n) <->
  Forall (fun w => forall i, w <> ArgAt i) ws \/ Forall (fun w => w <> NextArg) ws.
Proof.
  induction ws as [|w ws IH]; [cbn; split; [auto|eauto]|]. rewrite !Forall_cons. destruct w as [|i|name].
  - change (all_numbered 0 (NextArg :: ws)) with (all_numbered 1 ws). rewrite all_numbered_auto by lia. split; [intros H; left; split; [done|exact H]|intros [[_ H]|[H _]]; [exact H|done]].
  - change (all_numbered 0 (ArgAt i :: ws)) with (all_numbered (-1) ws). rewrite all_numbered_manual by lia. split; [intros H; right; split; [done|exact H]|intros [[H _]|[_ H]]; [by destruct (H i)|exact H]].
  - change (all_numbered 0 (Named name :: ws)) with (all_numbered 0 ws). rewrite IH. split; intros [H|H]; [left|right|left|right]; try (split; [done|exact H]); apply H.
Qed.

(** [n] is the number of arguments asked for by order; [next] is the model's next id. *)
Definition in_step (next n : Z) : Prop := next = n \/ next = -1.
Lemma index_which_step next n w next' : in_step next n -> numbered next w = Some next' ->
  (index_which n w).1 = (index_which next w).1 /\ in_step next' (index_which n w).2.
Proof.
  unfold in_step. intros H Hn. destruct w; cbn in *.
  - destruct (decide (next < 0)); [done|]. injection Hn as <-. destruct H as [->|?]; [auto|lia].
  - destruct (decide (next > 0)); [done|]. injection Hn as <-. auto.
  - injection Hn as <-. auto.
Qed.
Definition count_numbered (next : Z) (c : count) : option Z := all_numbered next (asked_by_count c).
Lemma index_count_step next n c next' : in_step next n -> count_numbered next c = Some next' ->
  (index_count n c).1 = (index_count next c).1 /\ in_step next' (index_count n c).2.
Proof.
  unfold count_numbered. intros H Hn. destruct c as [| |w|]; cbn in *; [injection Hn as <-; auto..| |injection Hn as <-; auto].
  destruct (numbered next w) as [nx|] eqn:Hw; [|done]. cbn in Hn. injection Hn as <-.
  destruct (index_which_step next n w nx H Hw) as [H1 H2]. destruct (index_which n w), (index_which next w). cbn in *. by subst.
Qed.

(** ** Finding arguments *)

Section args.
  Context (A : args custom_value).

  Definition arg_at (id : Z) : option (arg custom_value) := if decide (0 <= id) then argv A !! Z.to_nat id else None.
  Definition locate (w : which) : option (arg custom_value) :=
    match w with NextArg => None | ArgAt i => arg_at i | Named n => arg_at (get_id A n) end.

  Lemma get_arg_at id : get_arg A id = match arg_at id with Some a => Ok a | None => Throw end.
  Proof.
    unfold get_arg, arg_at, get. destruct (decide (0 <= id)); [|by rewrite decide_False by lia].
    destruct (decide _) as [H|H]; [destruct (lookup_lt_is_Some_2 (argv A) (Z.to_nat id) ltac:(lia)) as [a ->]; done|].
    by rewrite lookup_ge_None_2 by lia.
  Qed.
  Lemma arg_at_finds i v : finds (args_of A) (ArgAt i) v <-> exists a, arg_at i = Some a /\ v = value_of a.
  Proof.
    unfold arg_at. split.
    - inversion 1 as [? ? Hi Hv|]; subst. cbn in Hv. rewrite list_lookup_fmap in Hv. rewrite decide_True by done.
      destruct (argv A !! Z.to_nat i) as [a|]; [|done]. injection Hv as <-. eauto.
    - intros (a & Ha & ->). destruct (decide (0 <= i)); [|done]. constructor; [done|]. cbn. by rewrite list_lookup_fmap, Ha.
  Qed.
  Lemma locate_finds w v : finds (args_of A) w v <-> exists a, locate w = Some a /\ v = value_of a.
  Proof.
    destruct w as [|i|n]; cbn [locate].
    - split; [inversion 1|intros (a & H & _); done].
    - apply arg_at_finds.
    - unfold get_id. destruct (list_find (λ '(n0, _), n0 = n) (names A)) as [[k [n' id]]|] eqn:Hf.
      + apply list_find_Some in Hf as (Hk & -> & Hno). rewrite <- arg_at_finds. split.
        * inversion 1 as [|? k' i ? Hk' Hno' Hf]; subst. cbn in Hk', Hno'.
          assert (k' = k) as ->.
          { destruct (decide (k' < k)%nat) as [Hlt|Hlt]; [by destruct (Hno _ _ Hk' Hlt)|].
            destruct (decide (k < k')%nat) as [Hlt'|Hlt']; [|lia]. by destruct (Hno' _ id Hlt'). }
          rewrite Hk in Hk'. injection Hk' as ->. done.
        * intros H. apply (finds_named _ n k id); [done| |done]. cbn. intros k' i' Hlt Hk'. by destruct (Hno _ _ Hk' Hlt).
      + apply list_find_None in Hf. split.
        * inversion 1 as [|? k' i ? Hk' Hno' Hf']; subst. cbn in Hk'. rewrite Forall_forall in Hf.
          apply elem_of_list_lookup_2 in Hk'. by destruct (Hf _ Hk').
        * intros (a & Ha & _). done.
  Qed.

  Lemma on_arg_id_cases w next :
    (on_arg_id A (id_of w) next = Throw /\ (numbered next w = None \/ locate (index_which next w).1 = None)) \/
    (exists id next', on_arg_id A (id_of w) next = Ok (id, next') /\ numbered next w = Some next' /\
      get_arg A id = match locate (index_which next w).1 with Some a => Ok a | None => Throw end).
  Proof.
    destruct w as [|i|n]; cbn.
    - unfold next_arg_id. destruct (decide (next < 0)); [auto|]. right. eexists _, _. split; [done|]. split; [done|]. apply get_arg_at.
    - unfold check_arg_id. destruct (decide (next > 0)); [auto|]. right. eexists _, _. split; [done|]. split; [done|]. apply get_arg_at.
    - destruct (decide (get_id A n < 0)) as [Hn|Hn].
      + left. split; [done|]. right. unfold arg_at. by rewrite decide_False by lia.
      + right. eexists _, _. split; [done|]. split; [done|]. apply get_arg_at.
  Qed.

  (** ** Widths and precisions *)

  Definition count_of (a : arg custom_value) : option Z :=
    match a with AScalar (VInt _ v) => if decide (0 <= v <= int_max) then Some v else None | _ => None end.
  Definition counted (c : count) : option (option Z) :=
    match c with
    | NoCount | Bare => Some None
    | Number n => Some (Some n)
    | OfArg w => a ← locate w; Some <$> count_of a
    end.
  Lemma counted_counts c o : counts (args_of A) c o <-> counted c = Some o.
  Proof.
    destruct c as [|n|w|]; cbn; [..|split; [by inversion 1|intros [= <-]; constructor]].
    - split; [by inversion 1|intros [= <-]; constructor].
    - split; [by inversion 1|intros [= <-]; constructor].
    - split.
      + inversion 1 as [| | |? sg z Hf Hz]; subst. apply locate_finds in Hf as (a & Ha & Hv). rewrite Ha. cbn.
        destruct a as [v|[]]; [|done..]. cbn in Hv. destruct v; try done. cbn in Hv. injection Hv as -> ->. cbn. by rewrite decide_True.
      + destruct (locate w) as [a|] eqn:Ha; [|done]. cbn. destruct a as [v|]; [|done]. destruct v as [t z| | | | | | |]; try done. cbn.
        destruct (decide _) as [Hz|]; [|done]. cbn. intros [= <-]. apply (counts_arg _ _ (signed t) z); [|done]. apply locate_finds. by exists (AScalar (VInt t z)).
  Qed.
  Lemma get_dynamic_spec_eq a : get_dynamic_spec a = match count_of a with Some n => Ok n | None => Throw end.
  Proof.
    destruct a as [v|]; [|done]. destruct v as [t z| | | | | | |]; try done. cbn. change max_int with int_max.
    destruct (decide (z < 0)), (decide (0 <= z <= int_max)); try done; try lia; destruct (decide (z > int_max)); done || lia.
  Qed.
  Lemma count_cases c next :
    (count_res c next = Throw /\ count_numbered next c = None) \/
    (exists v r next', count_res c next = Ok (v, r, next') /\ count_numbered next c = Some next' /\
      forall d, handle_dynamic_spec A (default d v) (default RNone r)
        = match counted (index_count next c).1 with Some o => Ok (default d o) | None => Throw end).
  Proof.
    unfold count_numbered. destruct c as [|n|w|]; cbn; [..|right; eexists _, _, _; split; [done|]; split; [done|]; done].
    - right. eexists _, _, _. split; [done|]. split; [done|]. done.
    - right. eexists _, _, _. split; [done|]. split; [done|]. done.
    - assert (Hh : forall id d, (let* a := get_arg A id in get_dynamic_spec a)
        = match a ← arg_at id; Some <$> count_of a with Some o => Ok (default d o) | None => Throw end).
      { intros id d. rewrite get_arg_at. destruct (arg_at id) as [a|]; cbn [bind mbind option_bind]; [|done]. rewrite get_dynamic_spec_eq. by destruct (count_of a). }
      destruct w as [|i|n]; cbn.
      + unfold next_arg_id. destruct (decide (next < 0)); [by left|]. right. eexists _, _, _. split; [done|]. split; [done|]. intros d. apply Hh.
      + unfold check_arg_id. destruct (decide (next > 0)); [by left|]. right. eexists _, _, _. split; [done|]. split; [done|]. intros d. apply Hh.
      + right. eexists _, _, _. split; [done|]. split; [done|]. intros d. apply Hh.
  Qed.
End args.

(** ** Values *)

Definition debug_char_text (c : Z) (t : list Z) : Prop := write_escaped_char [] c = Ok t.
Definition debug_string_text (s t : list Z) : Prop := write_escaped_string [] s = Ok t.

Lemma in_field_0 p fl n t : 0 <= n -> in_field p fl 0 n t = t.
Proof.
  intros Hn. unfold in_field. rewrite Z.max_l by lia. destruct p; cbn; unfold copies; cbn; by rewrite ?app_nil_r.
Qed.

(** What is asked of the texts of floating-point numbers. *)
Definition fits1 (f : field) (p : option Z) (v : one) : Prop :=
  match v with OFloat d b => FloatField.float_fits f p d b | OCstring a _ => a = 0 -> f_type f = Some AsPointer | _ => True end.
Definition floats_shown (E : env) (float_plain : bool -> Z -> list Z -> Prop) (float_text : field -> Z -> option Z -> bool -> Z -> list Z -> Prop) : Prop :=
  forall v d b, one_of v = OFloat d b -> scalar_ok v ->
    (exists text, float_plain d b text /\ forall out, write_value_default E out v = Ok (out ++ text) /\ write_value E out v default_specs = Ok (out ++ text)) /\
    forall f w p wr pr, admits KFloat f -> 0 <= w <= int_max -> (forall n, p = Some n -> 0 <= n <= int_max) ->
      (FloatField.float_fits f p d b /\ exists text, float_text f w p d b text /\
        forall out, write_value E out v (specs_of f w (default (-1) p) wr pr) = Ok (out ++ text)) \/
      (~ FloatField.float_fits f p d b /\ forall out, write_value E out v (specs_of f w (default (-1) p) wr pr) = Throw).

Lemma for_up_throw {S} n i body (s : S) : (forall k s, (i <= k < i + n)%nat -> body k s = Throw \/ exists s', body k s = Ok s') ->
  (exists k, (i <= k < i + n)%nat /\ forall s, body k s = Throw) -> for_up n i body s = Throw.
Proof.
  revert i s. induction n as [|n IH]; intros i s Hall (k & Hk & Hth); [lia|]. cbn [for_up].
  destruct (decide (k = i)) as [->|]; [by rewrite Hth|].
  destruct (Hall i s ltac:(lia)) as [->|[s' ->]]; [done|]. cbn [bind]. apply IH; [intros; apply Hall; lia|]. exists k. split; [lia|done].
Qed.

Lemma until_zero_bytes chars : Forall is_byte chars -> Forall is_byte (until_zero chars).
Proof.
  unfold until_zero. induction 1 as [|c chars Hc H IH]; cbn; [constructor|]. destruct (decide (c = 0)); [constructor|].
  destruct (c_string chars); cbn; [by constructor|constructor..].
Qed.

Section values.
  Context (E : env) (HE : env_ok E) (Hsep : (length (sep E) <= 1)%nat).
  Context (float_plain : bool -> Z -> list Z -> Prop) (float_text : field -> Z -> option Z -> bool -> Z -> list Z -> Prop).
  Context (Hfloat : floats_shown E float_plain float_text).
  Notation shows1 := (one_shows (locale_of E) columns debug_char_text debug_string_text float_text).
  Notation plain_shows := (plain_shows float_plain).

  Lemma write_one_ok v f w p wr pr : scalar_ok v -> admits (kind_of (one_of v)) f -> 0 <= w <= int_max -> (forall n, p = Some n -> 0 <= n <= int_max) ->
    (kind_of (one_of v) <> KString -> kind_of (one_of v) <> KCstring -> kind_of (one_of v) <> KFloat -> p = None) ->
    (fits1 f p (one_of v) /\ exists text, shows1 f w p (one_of v) text /\ forall out, write_value E out v (specs_of f w (default (-1) p) wr pr) = Ok (out ++ text)) \/
    (~ fits1 f p (one_of v) /\ forall out, write_value E out v (specs_of f w (default (-1) p) wr pr) = Throw).
  Proof using HE Hsep Hfloat.
    rewrite kind_of_one. unfold int_max. intros Hv Ha Hw Hp Hnp. pose proof Ha as [Hty _].
    destruct v as [t z|b|c|s|b|b|a chars|a]; [left; (split; [done|])..|by apply (Hfloat (VFloat b))|by apply (Hfloat (VDouble b))| |left; (split; [done|])];
      cbn [scalar_ok one_of type_of one_shows write_value] in *.
    - rewrite (Hnp ltac:(by destruct (signed t)) ltac:(by destruct (signed t)) ltac:(by destruct (signed t))). cbn [default]. apply int_shows_ok; [done|done|apply Hv|apply Hv|lia|].
      split_and!; [intros H|intros H|intros H|intros st u H]; rewrite H in Hty; by destruct (signed t).
    - rewrite (Hnp ltac:(done) ltac:(done) ltac:(done)). apply bool_shows_ok; [done|done|lia|intros H|intros H|intros st u H]; by rewrite H in Hty.
    - rewrite (Hnp ltac:(done) ltac:(done) ltac:(done)). destruct (char_value_shows_ok E c f w wr pr HE Hsep ltac:(lia) Hv Ha) as (text & Ht & Hout).
      exists text. split; [|exact Hout]. exists (debug_char c). split; [|done]. by apply (debug_char_ok []).
    - destruct (pieces_exist s Hv) as [ps Hps].
      destruct (string_shows_ok E s ps f w (default (-1) p) wr pr) as (text & Ht & Hout); [lia|destruct p as [n|]; cbn; [specialize (Hp n eq_refl)|]; lia|done|done| |].
      { destruct (f_type f) as [[b| | | | |]|]; [done|done|by right; left|by right; right|done|done|by left]. }
      exists text. split; [|exact Hout]. exists (quoted printable ps). split; [by apply (write_escaped_string_ok [])|].
      replace p with (precision_of (default (-1) p)) at 1; [done|]. unfold precision_of. destruct p as [n|]; cbn; [|done].
      by rewrite decide_True by (by apply Hp).
    - destruct Hv as (Ha0 & Hby & H0). unfold write_cstring. cbn [typ specs_of fits1].
      assert (Hc : f_type f = Some AsPointer \/ f_type f <> Some AsPointer) by (destruct (f_type f) as [[]|]; auto).
      destruct Hc as [Hc|Hc].
      + destruct (pointer_shows_ok E a f w (default (-1) p) wr pr ltac:(lia) ltac:(lia)) as (text & Ht & Hout).
        destruct (pieces_exist (until_zero chars) (until_zero_bytes _ Hby)) as [ps Hps].
        left. split; [done|]. exists text. unfold cstring_shows. rewrite Hc. cbn [pres_of]. split; [|intros out; by rewrite decide_True by done].
        exists (quoted printable ps). split; [|done]. apply (write_escaped_string_ok []); [by apply until_zero_bytes|done].
      + assert (Hcp : pres_of (f_type f) <> PPointer) by (destruct (f_type f) as [[[| |[]|[]]| | | |[] ?|]|]; done).
        destruct (decide (a = 0)) as [Hz|Hne].
        { right. split; [by intros H; apply Hc, H|]. intros out. by rewrite decide_False. }
        left. split; [done|]. destruct (c_string_find chars (H0 Hne)) as (s & rest & Hs & ->). apply Forall_app in Hby as [Hby _].
        unfold until_zero. rewrite c_string_ok by done. cbn [bind]. destruct (pieces_exist s Hby) as [ps Hps]. unfold cstring_shows.
        destruct (string_shows_ok E s ps f w (default (-1) p) wr pr) as (text & Ht & Hout); [lia|destruct p as [n|]; cbn; [specialize (Hp n eq_refl)|]; lia|done|done| |].
        { destruct (f_type f) as [[b| | | | |]|]; [done|done|by right; left|by right; right|done|done|by left]. }
        exists text. split.
        * exists (quoted printable ps). split; [by apply (write_escaped_string_ok [])|].
          assert (Hpp : precision_of (default (-1) p) = p) by (unfold precision_of; destruct p as [n|]; cbn; [by rewrite decide_True by (by apply Hp)|done]).
          rewrite Hpp in Ht. revert Ht. by destruct (f_type f) as [[]|].
        * intros out. rewrite decide_False by done. apply Hout.
    - destruct (pointer_shows_ok E a f w (default (-1) p) wr pr ltac:(lia) ltac:(lia)) as (text & Ht & Hout). by exists text.
  Qed.
  (** A char value that does not admit the field is refused only now. *)
  Lemma write_char_throw out c f w p wr pr : as_char (f_type f) -> ~ (f_alternate f = false /\ zero_padded f = false) ->
    check_char_specs (specs_of f w p wr pr) = Throw /\ write_value E out (VChar c) (specs_of f w p wr pr) = Throw.
  Proof using HE Hsep.
    intros Hc Hn. assert (Hch : check_char_specs (specs_of f w p wr pr) = Throw).
    { unfold check_char_specs. cbn [typ al sgn alt specs_of].
      assert (H : al_of f = ANumeric \/ sgn_of f <> SNone \/ f_alternate f = true).
      { destruct (f_alternate f); [by right; right|]. left. apply numeric_of. destruct (zero_padded f); [done|]. by destruct Hn. }
      destruct (f_type f) as [[[| |[]|[]]| | | | |]|]; try done; cbn [pres_of]; by rewrite decide_True. }
    split; [done|]. cbn [write_value]. by rewrite Hch.
  Qed.

  Lemma plain_of_field v text : kind_of (one_of v) <> KFloat -> scalar_ok v -> shows1 no_options 0 None (one_of v) text -> plain_shows (one_of v) text.
  Proof using HE Hsep Hfloat.
    intros Hk Hv H. destruct v as [t z|b|c|s|b|b|a chars|a]; [| | | |done|done| |]; cbn [one_of one_shows plain_shows] in *.
    - unfold int_shows, number_shows in H. cbn [f_type f_local no_options zero_padded f_zero andb f_alternate] in H. destruct H as (t' & (ds & Hds & Ht') & H).
      rewrite H, in_field_0 by lia. rewrite Ht'.
      exists ds. split; [done|]. unfold sign_text. cbn. by destruct (decide _).
    - unfold bool_shows in H. cbn [f_type no_options] in H. cbv zeta in H. rewrite H, in_field_0 by lia. done.
    - destruct H as (d & _ & H). unfold char_value_shows, char_shows in H. cbn [f_type no_options] in H. rewrite H, in_field_0 by lia. done.
    - destruct H as (d & _ & H). unfold string_shows in H. cbn [f_type no_options] in H. destruct H as (ps & n & Hps & Hn & ->).
      rewrite in_field_0; [by apply pieces_concat|]. destruct Hn as (ps' & _ & ->). clear. induction ps' as [|x ps' IH]; [done|]. cbn.
      destruct x as [[cp|] bs]; cbn; [destruct (decide (wide cp))|]; lia.
    - destruct H as (d & _ & H). unfold cstring_shows, string_shows in H. cbn [f_type no_options] in H. destruct H as (ps & n & Hps & Hn & ->).
      rewrite in_field_0; [by apply pieces_concat|]. destruct Hn as (ps' & _ & ->). clear. induction ps' as [|x ps' IH]; [done|]. cbn.
      destruct x as [[cp|] bs]; cbn; [destruct (decide (wide cp))|]; lia.
    - destruct H as (ds & Hds & ->). exists ds. split; [done|]. cbv zeta. rewrite in_field_0 by lia. done.
  Qed.
  Lemma write_plain_ok v : scalar_ok v ->
    (plain_fits (one_of v) /\ exists text, plain_shows (one_of v) text /\ forall out, write_value_default E out v = Ok (out ++ text)) \/
    (~ plain_fits (one_of v) /\ forall out, write_value_default E out v = Throw).
  Proof using HE Hsep Hfloat.
    intros Hv. assert (Hd : plain_fits (one_of v) \/ exists chars, v = VCstr 0 chars).
    { destruct v as [| | | | | |a chars|]; [by left..| |by left]. destruct (decide (a = 0)) as [->|]; [right; eauto|by left]. }
    destruct Hd as [Hpf|[chars ->]]; [|right; split; [by intros H; apply H|done]]. left. split; [done|]. destruct v as [t z|b|c|s|b|b|a chars|a];
      [| | | |destruct (Hfloat (VFloat b) false b eq_refl Hv) as [(text & Ht & Hout) _]; exists text; split; [done|apply Hout]
         |destruct (Hfloat (VDouble b) true b eq_refl Hv) as [(text & Ht & Hout) _]; exists text; split; [done|apply Hout]| |]; cbn [scalar_ok one_of plain_shows] in *.
    - destruct (write_default_value_ok E t z) as (text & Ht & Hout); [apply Hv|apply Hv|]. eauto.
    - eexists. split; [done|]. intros out. cbn [write_value_default]. unfold write_bytes.
      rewrite (write_padded_ok _ _ _ _ _ _ (bool_name b)); [|cbn; lia|lia|done]. cbn [width default_specs]. rewrite in_field_0 by lia. done.
    - eexists. split; [done|]. done.
    - eexists. split; [done|]. done.
    - destruct Hv as (Ha & _ & H0). destruct (c_string_find chars (H0 Hpf)) as (s & rest & Hs & ->). unfold until_zero. rewrite c_string_ok by done.
      eexists. split; [done|]. intros out. cbn [write_value_default]. unfold write_cstring_default. rewrite decide_True by done.
      by rewrite c_string_ok by done.
    - destruct (pointer_shows_ok E a no_options 0 (-1) RNone RNone ltac:(lia) ltac:(lia)) as (text & (ds & Hds & ->) & Hout).
      eexists. split; [exists ds; by split|]. intros out. specialize (Hout out). cbv zeta in Hout. rewrite in_field_0 in Hout by lia. exact Hout.
  Qed.
  Lemma write_no_options_ok v : scalar_ok v ->
    (plain_fits (one_of v) /\ exists text, plain_shows (one_of v) text /\ forall out, write_value E out v default_specs = Ok (out ++ text)) \/
    (~ plain_fits (one_of v) /\ forall out, write_value E out v default_specs = Throw).
  Proof using HE Hsep Hfloat.
    intros Hv. assert (Hk : kind_of (one_of v) <> KFloat \/ exists d b, one_of v = OFloat d b) by (destruct v as [[? []]| | | | | | |]; eauto).
    destruct Hk as [Hk|(d & b & Hd)].
    - destruct (write_one_ok v no_options 0 None RNone RNone) as [(Hf1 & text & Ht & Hout)|[Hn Hout]]; [done| |unfold int_max; lia|done|done|..].
      + rewrite kind_of_one. unfold admits. cbn. split_and!; done.
      + left. split; [destruct (one_of v); try done; intros H0; by specialize (Hf1 H0)|]. exists text. split; [by apply plain_of_field|]. exact Hout.
      + right. split; [|exact Hout]. intros Hpf. apply Hn. unfold fits1. by destruct (one_of v).
    - destruct (Hfloat v d b Hd Hv) as [(text & Ht & Hout) _]. left. rewrite Hd. split; [done|]. exists text. split; [done|apply Hout].
  Qed.

  (** ** Several values *)

  Lemma for_up_separated (P : scalar -> list Z -> Prop) (write : scalar -> list Z -> res (list Z)) elems sep :
    (forall v, v ∈ elems -> exists text, P v text /\ forall out, write v out = Ok (out ++ text)) ->
    exists texts, Forall2 P elems texts /\ forall out,
      for_up (length elems) 0 (fun i out => let* v := get elems i in write v (if decide (i = 0%nat) then out else out ++ sep)) out
      = Ok (out ++ separated sep texts).
  Proof using HE Hsep Hfloat.
    intros H.
    assert (Htexts : exists texts, Forall2 (fun v text => P v text /\ forall out, write v out = Ok (out ++ text)) elems texts).
    { clear -H. induction elems as [|v elems IH]; [by exists []|]. destruct IH as [texts IH]; [intros x Hx; apply H; by right|].
      destruct (H v) as (text & ? & ?); [by left|]. exists (text :: texts). by constructor. }
    destruct Htexts as [texts Ht]. exists texts. split; [eapply Forall2_impl; [exact Ht|]; by intros v t [? _]|].
    assert (Hgen : forall n i out, (i + n = length elems)%nat -> (0 < i)%nat ->
      for_up n i (fun i out => let* v := get elems i in write v (if decide (i = 0%nat) then out else out ++ sep)) out
      = Ok (out ++ concat (map (app sep) (drop i texts)))).
    { induction n as [|n IH]; intros i out Hi Hpos; cbn [for_up].
      - rewrite drop_ge by (rewrite <- (Forall2_length _ _ _ Ht); lia). cbn. by rewrite app_nil_r.
      - destruct (lookup_lt_is_Some_2 elems i ltac:(lia)) as [v Hv]. destruct (Forall2_lookup_l _ _ _ _ _ Ht Hv) as (text & Htext & _ & Hw).
        unfold get at 1. rewrite Hv. cbn [bind]. rewrite Hw. cbn [bind]. rewrite decide_False by lia. rewrite IH by lia.
        rewrite (drop_S texts text i) by done. cbn [map concat]. by rewrite !app_assoc. }
    intros out. destruct elems as [|v elems]; cbn [length for_up].
    - inversion Ht; subst. cbn. by rewrite app_nil_r.
    - inversion Ht as [|? text ? texts' [_ Hw] Ht']; subst. unfold get at 1. cbn [lookup list_lookup bind]. rewrite decide_True by done.
      rewrite Hw. cbn [bind]. rewrite Hgen by (cbn; lia). cbn [separated drop]. by rewrite !app_assoc.
  Qed.

  (** Either all of them are written, or one is refused. *)
  Lemma for_up_cases (P : scalar -> list Z -> Prop) (Q : scalar -> Prop) (write : scalar -> list Z -> res (list Z)) elems sep :
    (forall v, v ∈ elems -> (Q v /\ exists text, P v text /\ forall out, write v out = Ok (out ++ text)) \/ (~ Q v /\ forall out, write v out = Throw)) ->
    (Forall Q elems /\ exists texts, Forall2 P elems texts /\ forall out,
      for_up (length elems) 0 (fun i out => let* v := get elems i in write v (if decide (i = 0%nat) then out else out ++ sep)) out
      = Ok (out ++ separated sep texts)) \/
    (~ Forall Q elems /\ forall out,
      for_up (length elems) 0 (fun i out => let* v := get elems i in write v (if decide (i = 0%nat) then out else out ++ sep)) out = Throw).
  Proof using HE Hsep Hfloat.
    intros H. assert (Hd : (Forall Q elems /\ forall v, v ∈ elems -> exists text, P v text /\ forall out, write v out = Ok (out ++ text)) \/
      exists k v, elems !! k = Some v /\ ~ Q v /\ forall out, write v out = Throw).
    { clear -H. induction elems as [|v l IH]; [left; split; [constructor|by intros ? ?%elem_of_nil]|].
      destruct (H v) as [(Hf1 & Hw1)|[Hn Hw1]]; [by left| |right; exists 0%nat, v; split_and!; done].
      destruct IH as [[Hf2 Hw2]|(k & v' & Hk & Hn)]; [intros x Hx; apply H; by right|left|right; exists (S k), v'; split; [exact Hk|exact Hn]].
      split; [by constructor|]. intros x Hx. apply elem_of_cons in Hx as [->|Hx]; [done|by apply Hw2]. }
    destruct Hd as [[HQ Hw]|(k & v & Hk & Hn & Hw)]; [left; split; [done|by apply for_up_separated]|right].
    split; [intros HQ; rewrite Forall_lookup in HQ; by apply Hn, (HQ k)|]. intros out. apply for_up_throw.
    - intros i o Hi. destruct (lookup_lt_is_Some_2 elems i ltac:(lia)) as [v' Hv']. unfold get. rewrite Hv'. cbn [bind].
      destruct (H v') as [(_ & text & _ & Hw1)|[_ Hw1]]; [by eapply elem_of_list_lookup_2|right; rewrite Hw1; eauto|left; by rewrite Hw1].
    - exists k. split; [apply lookup_lt_Some in Hk; lia|]. intros o. unfold get. rewrite Hk. cbn [bind]. apply Hw.
  Qed.
  Lemma join_plain_ok {C} (A : args C) j : join_ok j ->
    (Forall plain_fits (one_of <$> j_elems j) /\ exists texts, Forall2 plain_shows (one_of <$> j_elems j) texts /\
      forall next out, join_custom E A j [] 0 next out = Ok (0%nat, next, out ++ separated (j_sep j) texts)) \/
    (~ Forall plain_fits (one_of <$> j_elems j) /\ forall next out, join_custom E A j [] 0 next out = Throw).
  Proof using HE Hsep Hfloat.
    intros Hj. destruct (for_up_cases (fun v t => plain_shows (one_of v) t) (fun v => plain_fits (one_of v)) (fun v out => write_value E out v default_specs) (j_elems j) (j_sep j))
      as [(HQ & texts & Ht & Hout)|[HQ Hout]].
    { intros v Hv. unfold join_ok in Hj. rewrite Forall_forall in Hj. destruct (Hj v Hv) as [Hok _]. by apply write_no_options_ok. }
    1: left; (split; [by rewrite Forall_fmap|]); exists texts; (split; [by apply Forall2_fmap_l|]).
    2: right; (split; [by rewrite Forall_fmap|]).
    all: intros next out; unfold join_custom;
      change (parse_format_specs [] 0 (j_type j) next) with (@Ok (nat * specs * Z) (0%nat, default_specs, next)); cbn [bind];
      replace (match j_type j with TChar => check_char_specs default_specs | _ => Ok true end) with (Ok true) by (by destruct (j_type j)); cbn [bind];
      cbn [handle_dynamic_spec width_ref precision_ref default_specs bind];
      change (set_precision (set_width default_specs (width default_specs)) (precision default_specs)) with default_specs;
      by rewrite Hout.
  Qed.

  Lemma vformat_brackets t elems out : Forall (fun v => scalar_ok v /\ type_of v = t) elems ->
    (Forall plain_fits (one_of <$> elems) /\ exists texts, Forall2 plain_shows (one_of <$> elems) texts /\
      vformat_to join_custom E (Args [ACustom (Join t elems [44; 32])] []) [91; 123; 125; 93] out = Ok (out ++ [91] ++ separated [44; 32] texts ++ [93])) \/
    (~ Forall plain_fits (one_of <$> elems) /\
      vformat_to join_custom E (Args [ACustom (Join t elems [44; 32])] []) [91; 123; 125; 93] out = Throw).
  Proof using HE Hsep Hfloat.
    intros Hel. set (A := Args _ _).
    assert (Hprog : progress [91; 123; 125; 93] (parse_replacement_field join_custom E A [91; 123; 125; 93])).
    { apply (progress_ok join_custom join_ok E HE Hsep).
      + intros A' c' s' b' n' o' HA' Hc' Hb'. by eapply join_safe.
      + unfold args_ok, A. constructor; [|done]. done. }
    assert (Hfield : parse_replacement_field join_custom E A [91; 123; 125; 93] 1 0 (out ++ [91]) =
      (let* out := (let* (_, _, out) := join_custom E A (Join t elems [44; 32]) [] 0 0 (out ++ [91]) in Ok out) in Ok (3%nat, 1, out))) by reflexivity.
    destruct (join_plain_ok A (Join t elems [44; 32])) as [(HQ & texts & Ht & Hout)|[HQ Hout]]; [done|left|right]; cbn [j_elems j_sep] in *; (split; [done|]).
    - exists texts. split; [done|]. apply vformat_to_ok; [done|].
      eapply parses_char with (c := 91); [done|done|done|].
      eapply parses_field; [done| |].
      + rewrite Hfield, Hout. reflexivity.
      + eapply parses_char with (c := 93); [done|done|done|].
        replace (out ++ [91] ++ separated [44; 32] texts ++ [93]) with (((out ++ [91]) ++ separated [44; 32] texts) ++ [93]) by (by rewrite <- !app_assoc).
        apply (parses_end [91; 123; 125; 93]).
    - apply vformat_to_ok; [done|]. eapply parses_char with (c := 91); [done|done|done|].
      apply (parses_error _ _ 1 0 (out ++ [91]) Throw); [done| |done]. by rewrite Hfield, Hout.
  Qed.
End values.

(** ** Fields *)

Lemma no_options_text f t : field_ok f -> field_text f t ->
  (f = no_options /\ t = []) \/ (f <> no_options /\ exists c l, t = c :: l /\ c <> 125).
Proof.
  intros (Hfill & Hw & _) Ht. destruct Ht as [w p Hwt Hpt]. destruct f as [fl al sg alt ze fw fp lo ty]. cbn in *.
  destruct fl as [|b fl].
  2: { right. split; [done|]. cbn. eexists _, _. split; [done|]. destruct Hfill as [?|(_ & b0 & bs & [= <- <-] & _ & _ & H2 & _)]; done. }
  destruct al as [[]|]; [right; split; [done|]; cbn; eauto with lia..|].
  destruct sg as [[]|]; [right; split; [done|]; cbn; eauto with lia..|].
  destruct alt; [right; split; [done|]; cbn; eauto with lia|].
  destruct ze; [right; split; [done|]; cbn; eauto with lia|].
  destruct Hwt as [|n wt Hn|wh wt Hwh].
  2: { right. split; [done|]. destruct (numeral_head n wt Hn) as (d & t' & -> & Hd & _). cbn. eexists _, _. split; [done|]. change (digit_char false d <> 125). rewrite digit_char_eq by done. lia. }
  2: { right. split; [done|]. cbn. eauto with lia. }
  destruct Hpt as [|n ds _ _ _ _| |cn ps Hne _].
  1: { right. split; [done|]. cbn. eauto with lia. }
  1: { right. split; [done|]. cbn. eauto with lia. }
  2: { right. split; [intros [= ->]; done|]. cbn. eauto with lia. }
  destruct lo; [right; split; [done|]; cbn; eauto with lia|].
  destruct ty as [[[| |[]|[]]| | | |[] []|]|]; [right; split; [done|]; cbn; eauto with lia..|]. by left.
Qed.

Definition field_numbered (next : Z) (f : field) : option Z :=
  all_numbered next (asked_by_count (f_width f) ++ asked_by_count (f_precision f)).
Definition recount (f : field) (w p : count) : field :=
  Field (f_fill f) (f_align f) (f_sign f) (f_alternate f) (f_zero f) w p (f_local f) (f_type f).
Lemma index_field_eq n f : index_field n f =
  (recount f (index_count n (f_width f)).1 (index_count (index_count n (f_width f)).2 (f_precision f)).1,
   (index_count (index_count n (f_width f)).2 (f_precision f)).2).
Proof. unfold index_field. destruct (index_count n (f_width f)) as [w n1]. cbn. by destruct (index_count n1 (f_precision f)). Qed.
Lemma index_field_step next n f next' : in_step next n -> field_numbered next f = Some next' ->
  (index_field n f).1 = (index_field next f).1 /\ in_step next' (index_field n f).2.
Proof.
  unfold field_numbered. intros Hs Hn. rewrite all_numbered_app in Hn. rewrite !index_field_eq. cbn [fst snd].
  destruct (all_numbered next (asked_by_count (f_width f))) as [nx|] eqn:Hw; [|done]. cbn [mbind option_bind] in Hn.
  destruct (index_count_step next n (f_width f) nx Hs Hw) as [H1 H2].
  destruct (index_count_step next next (f_width f) nx (or_introl eq_refl) Hw) as [_ H2'].
  destruct (index_count_step nx _ (f_precision f) next' H2 Hn) as [H3 H4].
  destruct (index_count_step nx _ (f_precision f) next' H2' Hn) as [H3' _].
  split; [|done]. by rewrite H1, H3, H3'.
Qed.
Lemma index_item_step next n i next' : in_step next n -> all_numbered next (asked_by i) = Some next' ->
  (index_item n i).1 = (index_item next i).1 /\ in_step next' (index_item n i).2.
Proof.
  intros Hs Hn. destruct i as [c|w [f|]]; cbn [asked_by index_item] in *.
  - cbn in Hn. injection Hn as <-. done.
  - cbn [all_numbered] in Hn. destruct (numbered next w) as [nx|] eqn:Hw; [|done]. cbn [mbind option_bind] in Hn.
    destruct (index_which_step next n w nx Hs Hw) as [H1 H2].
    destruct (index_which_step next next w nx (or_introl eq_refl) Hw) as [_ H2'].
    destruct (index_which n w) as [w1 n1], (index_which next w) as [w2 n2]. cbn in H1, H2, H2'. subst w2.
    destruct (index_field_step nx n1 f next' H2 Hn) as [H3 H4]. destruct (index_field_step nx n2 f next' H2' Hn) as [H3' _].
    destruct (index_field n1 f), (index_field n2 f). cbn in *. by subst.
  - cbn [all_numbered] in Hn. destruct (numbered next w) as [nx|] eqn:Hw; [|done]. cbn [mbind option_bind] in Hn. injection Hn as <-.
    destruct (index_which_step next n w nx Hs Hw) as [H1 H2]. destruct (index_which n w), (index_which next w). cbn in *. by subst.
Qed.
Lemma index_count_none n c : (index_count n c).1 = NoCount <-> c = NoCount.
Proof. destruct c as [| |w|]; cbn; [done..| |done]. by destruct (index_which n w). Qed.
Lemma recount_no_options f w p : (w = NoCount <-> f_width f = NoCount) -> (p = NoCount <-> f_precision f = NoCount) ->
  recount f w p = no_options <-> f = no_options.
Proof.
  destruct f as [fl al sg alt ze fw fp lo ty]. unfold recount, no_options. cbn. intros H1 H2. split.
  - intros [= -> -> -> -> -> -> -> -> ->]. f_equal; [by apply H1|by apply H2].
  - intros [= -> -> -> -> -> -> -> -> ->]. f_equal; [by apply H1|by apply H2].
Qed.
Lemma recount_admits k f w p : (p = NoCount <-> f_precision f = NoCount) -> admits k (recount f w p) <-> admits k f.
Proof.
  intros Hp. assert (H : forall p', (p' <> NoCount -> k = KString \/ k = KCstring \/ k = KFloat) -> (forall p'', (p'' = NoCount <-> p' = NoCount) -> p'' <> NoCount -> k = KString \/ k = KCstring \/ k = KFloat)).
  { intros p' H p'' Hi Hn. apply H. intros ->. apply Hn. by apply Hi. }
  unfold admits, recount, zero_padded. cbn. split; intros (H1 & H2 & H3 & H4 & H5 & H6 & H7); split_and!; try done; eapply H; done || eauto.
Qed.

Lemma char_check t f w p wr pr : parse_fits t f = true ->
  (match t with TChar => check_char_specs (specs_of f w p wr pr) | _ => Ok true end = Throw /\ ~ admits (kind_of_ty t) f) \/
  (exists b, match t with TChar => check_char_specs (specs_of f w p wr pr) | _ => Ok true end = Ok b /\ admits (kind_of_ty t) f).
Proof.
  intros Hf. rewrite admits_parse.
  assert (Hother : t <> TChar -> match t with TChar => check_char_specs (specs_of f w p wr pr) | _ => Ok true end = Ok true) by (by destruct t).
  assert (Hd : t = TChar \/ t <> TChar) by (destruct t; auto). destruct Hd as [->|Hne]; [|right; exists true; split; [by apply Hother|]; apply admits_parse; split; [done|by intros ->]].
  clear Hother. unfold check_char_specs. cbn [typ al sgn alt specs_of].
  assert (Hsg : sgn_of f = SNone).
  { unfold sgn_of. unfold parse_fits in Hf. destruct (f_sign f); [|done]. done. }
  assert (Hiff : (al_of f = ANumeric \/ sgn_of f <> SNone \/ f_alternate f = true) <-> ~ (f_alternate f = false /\ zero_padded f = false)).
  { rewrite Hsg, numeric_of. destruct (f_alternate f), (zero_padded f); split; intros H; try by auto; try (by destruct H as [?|[?|?]]); try (by intros []). }
  destruct (f_type f) as [[[| |[]|[]]| | | |[] []|]|] eqn:Hty; cbn [pres_of]; try (right; exists false; split; [done|]; apply admits_parse; split; [done|]; rewrite Hty; intros _ []);
    (destruct (decide _) as [H|H]; [left; split; [done|]; intros [_ H']; apply Hiff in H; by apply H, H'|];
     right; exists true; split; [done|]; apply admits_parse; split; [done|]; intros _ _; rewrite Hiff in H;
     destruct (f_alternate f), (zero_padded f); try done; (exfalso; apply H; by intros [])).
Qed.

(** ** A field, with any handler *)

Definition close (s : list Z) (r : res (nat * Z * list Z)) : res (nat * Z * list Z) :=
  let* (begin, next, out) := r in
  if decide (begin = length s) then Throw
  else let* b := get s begin in if decide (b <> 125) then Throw else Ok (S begin, next, out).

Section handler.
  Context (s : list Z) (on_id : arg_id -> Z -> res (Z * Z)) (on_plain : Z -> nat -> Z -> list Z -> res (list Z)).
  Context (on_specs : Z -> nat -> Z -> list Z -> res (nat * Z * list Z)).
  Notation field_at := (replacement_field s on_id on_plain on_specs).

  Lemma which_head w i : which_ok w -> which_text w i -> i = [] /\ w = NextArg \/ exists c l, i = c :: l /\ c <> 123 /\ c <> 125.
  Proof.
    intros Hw Hi. destruct Hi as [|n i Hn|n i Hn _|name]; [by left|right..].
    - destruct (numeral_head n i Hn) as (d & l & -> & Hd & _). eexists _, _. split; [done|]. change (digit_char false d <> 123 /\ digit_char false d <> 125). rewrite digit_char_eq by done. clear -Hd. lia.
    - destruct (numeral_head n i Hn) as (d & l & -> & Hd & _). eexists _, _. split; [done|]. change (digit_char false d <> 123 /\ digit_char false d <> 125). rewrite digit_char_eq by done. clear -Hd. lia.
    - destruct name as [|c l]; [done|]. destruct Hw as [Hc _]. exists c, l. split; [done|]. unfold letter in Hc. clear -Hc. lia.
  Qed.
  Lemma replacement_brace p rest next out : drop p s = 123 :: 123 :: rest -> field_at p next out = Ok (S (S p), next, out ++ [123]).
  Proof.
    intros Hs. unfold replacement_field.
    pose proof (drop_next _ _ _ _ Hs) as Hs'. pose proof (drop_lt _ _ _ _ Hs'). rewrite decide_False by lia.
    rewrite (get_head _ _ _ _ Hs'). cbn [bind]. rewrite decide_False, decide_True by done.
    rewrite (slice_snoc s (S p) (S p) 123) by (lia || by eapply drop_head). by rewrite slice_nil.
  Qed.
  Lemma replacement_plain w i p rest next out : which_ok w -> which_text w i -> drop p s = ([123] ++ i ++ [125]) ++ rest ->
    field_at p next out =
      let* (id, next) := on_id (id_of w) next in
      let* out := on_plain id (S p + length i)%nat next out in Ok ((p + length ([123%Z] ++ i ++ [125%Z]))%nat, next, out).
  Proof.
    intros Hw Hi Hs. rewrite <- !app_assoc in Hs. cbn [app] in Hs.
    pose proof (drop_next _ _ _ _ Hs) as Hs1. pose proof (drop_after _ _ _ _ Hs1) as Hs2. pose proof (drop_lt _ _ _ _ Hs2) as Hl2.
    unfold replacement_field. rewrite decide_False by lia.
    destruct (which_head w i Hw Hi) as [[-> ->]|(c & l & Hcl & Hc1 & Hc2)].
    - cbn [app] in Hs1. rewrite (get_head _ _ _ _ Hs1). cbn [bind]. rewrite decide_True by done. cbn [id_of].
      replace (S (S p)) with (p + length ([123%Z] ++ [] ++ [125%Z]))%nat by (cbn; lia). cbn [length]. by rewrite Nat.add_0_r.
    - assert (Hs1' : drop (S p) s = c :: l ++ 125 :: rest) by (by rewrite Hs1, Hcl).
      rewrite (get_head _ _ _ _ Hs1'). cbn [bind]. rewrite !decide_False by done.
      rewrite (parse_arg_id_ok s (S p) w i 125 rest) by (done || by left). cbn [bind].
      destruct (on_id (id_of w) next) as [[id nx]| | |]; cbn [bind]; [|done..].
      rewrite decide_True by lia. rewrite (get_head _ _ _ _ Hs2). cbn [bind]. rewrite decide_True by done.
      replace (S (S p + length i)) with (p + length ([123%Z] ++ i ++ [125%Z]))%nat by (cbn; rewrite app_length; cbn; lia). done.
  Qed.
  Lemma replacement_specs w i ft p rest next out : which_ok w -> which_text w i -> drop p s = ([123] ++ i ++ [58] ++ ft ++ [125]) ++ rest ->
    field_at p next out = let* (id, next) := on_id (id_of w) next in close s (on_specs id (S (S p + length i)) next out).
  Proof.
    intros Hw Hi Hs. rewrite <- !app_assoc in Hs. cbn [app] in Hs.
    pose proof (drop_next _ _ _ _ Hs) as Hs1. pose proof (drop_after _ _ _ _ Hs1) as Hs2. pose proof (drop_lt _ _ _ _ Hs2) as Hl2.
    pose proof (drop_next _ _ _ _ Hs2) as Hs3. unfold replacement_field. rewrite decide_False by lia.
    assert (Hc : exists c l, i ++ 58 :: ft ++ 125 :: rest = c :: l /\ c <> 123 /\ c <> 125).
    { destruct (which_head w i Hw Hi) as [[-> ->]|(c & l & -> & Hc1 & Hc2)]; [eexists _, _; split; [done|]; done|eexists _, _; split; [done|]; done]. }
    destruct Hc as (c & l & Hcl & Hc1 & Hc2). 
    assert (Hs1' : drop (S p) s = c :: l) by (by rewrite Hs1, Hcl).
    rewrite (get_head _ _ _ _ Hs1'). cbn [bind]. rewrite !decide_False by done.
    rewrite (parse_arg_id_ok s (S p) w i 58 (ft ++ 125 :: rest)) by (done || by right). cbn [bind].
    destruct (on_id (id_of w) next) as [[id nx]| | |]; cbn [bind]; [|done..].
    rewrite decide_True by lia. rewrite (get_head _ _ _ _ Hs2). cbn [bind]. rewrite decide_False, decide_True by done. done.
  Qed.
End handler.

(** ** A string, with any handler: an item is read if it fits, and refused if not *)

Section template.
  Context (s : list Z) (field_at : nat -> Z -> list Z -> res (nat * Z * list Z)).
  Context (ifits : item -> Prop) (ishows : item -> list Z -> Prop).
  Definition item_cases (it : item) (pre : list Z) (p : nat) (next : Z) (out : list Z) : Prop :=
    (exists next' t, all_numbered next (asked_by it) = Some next' /\ ifits (index_item next it).1 /\ ishows (index_item next it).1 t /\
      field_at p next out = Ok ((p + length pre)%nat, next', out ++ t)) \/
    ((all_numbered next (asked_by it) = None \/ ~ ifits (index_item next it).1) /\ field_at p next out = Throw).
  Context (Htext : forall c, ifits (Text c) /\ ishows (Text c) [c]).
  Context (Hbrace : forall p rest next out, drop p s = 123 :: 123 :: rest -> field_at p next out = Ok (S (S p), next, out ++ [123])).
  Context (Hshow : forall w i p rest next out, which_ok w -> which_text w i -> drop p s = ([123] ++ i ++ [125]) ++ rest ->
    item_cases (Show w None) ([123] ++ i ++ [125]) p next out).
  Context (Hfield : forall w i f ft p rest next out, which_ok w -> which_text w i -> field_ok f -> field_text f ft ->
    drop p s = ([123] ++ i ++ [58] ++ ft ++ [125]) ++ rest -> item_cases (Show w (Some f)) ([123] ++ i ++ [58] ++ ft ++ [125]) p next out).

  Notation P := (parses s field_at).
  Lemma template_cases ts pre : template_text ts pre -> forall p rest next n out, drop p s = pre ++ rest -> in_step next n ->
    (exists next' texts, all_numbered next (asked ts) = Some next' /\ Forall (ifits) (index n ts) /\
      Forall2 ishows (index n ts) texts /\ forall r, P (p + length pre) next' (out ++ concat texts) r -> P p next out r) \/
    ((all_numbered next (asked ts) = None \/ ~ Forall (ifits) (index n ts)) /\ P p next out Throw).
  Proof using All.
    assert (Hcons : forall it ts pre1 pre p rest next n out,
      (forall p rest next n out, drop p s = pre ++ rest -> in_step next n ->
        (exists next' texts, all_numbered next (asked ts) = Some next' /\ Forall (ifits) (index n ts) /\
          Forall2 ishows (index n ts) texts /\ forall r, P (p + length pre) next' (out ++ concat texts) r -> P p next out r) \/
        ((all_numbered next (asked ts) = None \/ ~ Forall (ifits) (index n ts)) /\ P p next out Throw)) ->
      drop p s = (pre1 ++ pre) ++ rest -> in_step next n ->
      ((exists next' t, all_numbered next (asked_by it) = Some next' /\ ifits (index_item next it).1 /\ ishows (index_item next it).1 t /\
        forall r, P (p + length pre1) next' (out ++ t) r -> P p next out r) \/
       ((all_numbered next (asked_by it) = None \/ ~ ifits (index_item next it).1) /\ P p next out Throw)) ->
      (exists next' texts, all_numbered next (asked (it :: ts)) = Some next' /\ Forall (ifits) (index n (it :: ts)) /\
          Forall2 ishows (index n (it :: ts)) texts /\ forall r, P (p + length (pre1 ++ pre)) next' (out ++ concat texts) r -> P p next out r) \/
        ((all_numbered next (asked (it :: ts)) = None \/ ~ Forall (ifits) (index n (it :: ts))) /\ P p next out Throw)).
    { intros it ts0 pre1 pre0 p rest next n out IH Hs Hstep Hit. unfold asked. cbn [map concat]. fold (asked ts0). rewrite all_numbered_app.
      cbn [index]. destruct (all_numbered next (asked_by it)) as [nx|] eqn:Hnum; cbn [mbind option_bind].
      2: { right. split; [by left|]. destruct Hit as [(? & ? & ? & _)|[_ ?]]; done. }
      destruct (index_item_step next n it nx Hstep Hnum) as [Hii Hstep'].
      destruct (index_item n it) as [it' n'] eqn:Hidx. cbn [fst snd] in *. subst it'.
      destruct Hit as [(nx' & t & [= <-] & Hfit & Hsh & Hgo)|[[?|Hno] Hthrow]]; [|done|].
      2: { right. split; [|done]. right. by intros [? _]%Forall_cons. }
      rewrite <- app_assoc in Hs. apply drop_after in Hs.
      destruct (IH _ rest nx n' (out ++ t) Hs Hstep') as [(nx2 & texts & H1 & H2 & H3 & H4)|[Hor Hthrow]].
      - left. exists nx2, (t :: texts). split; [done|]. split; [by constructor|]. split; [by constructor|].
        intros r Hr. apply Hgo, H4. cbn [concat] in Hr. by rewrite app_length, app_assoc, Nat.add_assoc in Hr.
      - right. split; [|by apply Hgo]. destruct Hor as [?|Hno]; [by left|]. right. by intros [_ ?]%Forall_cons. }
    intros Ht. induction Ht as [|c ts t H1 H2 Ht IH|c ts t Hc Ht IH|w i ts t Hw Hi Ht IH|w i f ft ts t Hw Hi Hok Hft Ht IH]; intros p rest next n out Hs Hstep.
    - left. exists next, []. split; [done|]. split; [constructor|]. split; [constructor|]. intros r. by rewrite Nat.add_0_r, app_nil_r.
    - apply (Hcons (Text c) ts [c] t p rest next n out IH); [done|done|]. left. exists next, [c]. split; [done|]. split; [apply Htext|]. split; [apply Htext|].
      intros r Hr. eapply parses_char; [by eapply drop_head|done|done|]. by replace (S p) with (p + length [c])%nat by (cbn; lia).
    - apply (Hcons (Text c) ts [c; c] t p rest next n out IH); [done|done|]. left. exists next, [c]. split; [done|]. split; [apply Htext|]. split; [apply Htext|].
      intros r Hr. cbn [app] in Hs. destruct Hc as [->| ->].
      + eapply parses_field; [by eapply drop_head| |exact Hr]. rewrite (Hbrace p (t ++ rest) next out) by done. cbn [length]. do 3 f_equal. lia.
      + eapply parses_close; [by eapply drop_head|eapply drop_head; by eapply drop_next|]. by replace (S (S p)) with (p + length [125%Z; 125%Z])%nat by (cbn; lia).
    - replace ([123] ++ i ++ [125] ++ t) with (([123] ++ i ++ [125]) ++ t) in * by (by rewrite <- !app_assoc).
      apply (Hcons (Show w None) ts _ t p rest next n out IH); [done|done|]. rewrite <- app_assoc in Hs.
      destruct (Hshow w i p _ next out Hw Hi Hs) as [(nx & tx & H1 & H2 & H3 & H4)|[Hor Hthrow]].
      + left. exists nx, tx. split_and!; [done|done|done|]. intros r Hr. by eapply parses_field; [eapply drop_head; exact Hs|exact H4|].
      + right. split; [done|]. apply (parses_error _ _ p next out Throw); [eapply drop_head; exact Hs|done|done].
    - replace ([123] ++ i ++ [58] ++ ft ++ [125] ++ t) with (([123] ++ i ++ [58] ++ ft ++ [125]) ++ t) in * by (by rewrite <- !app_assoc).
      apply (Hcons (Show w (Some f)) ts _ t p rest next n out IH); [done|done|]. rewrite <- app_assoc in Hs.
      destruct (Hfield w i f ft p _ next out Hw Hi Hok Hft Hs) as [(nx & tx & H1 & H2 & H3 & H4)|[Hor Hthrow]].
      + left. exists nx, tx. split_and!; [done|done|done|]. intros r Hr. by eapply parses_field; [eapply drop_head; exact Hs|exact H4|].
      + right. split; [done|]. apply (parses_error _ _ p next out Throw); [eapply drop_head; exact Hs|done|done].
  Qed.


  Lemma scan_cases ts : progress s field_at -> template_text ts s ->
    (one_way ts /\ Forall ifits (index 0 ts) /\ exists texts, Forall2 ishows (index 0 ts) texts /\ parses s field_at 0 0 [] (Ok (concat texts))) \/
    (~ (one_way ts /\ Forall ifits (index 0 ts)) /\ parses s field_at 0 0 [] Throw).
  Proof using All.
    intros Hpr Ht. unfold one_way. rewrite <- all_numbered_start.
    destruct (template_cases ts s Ht 0 [] 0 0 []) as [(nx & texts & H1 & H2 & H3 & H4)|[Hor Hthrow]]; [by rewrite app_nil_r, drop_0|by left|..].
    - left. split; [eauto|]. split; [done|]. exists texts. split; [done|]. apply H4. apply parses_end.
    - right. split; [|done]. intros [[nx H1] H2]. destruct Hor; [congruence|done].
  Qed.
End template.

Section items.
  Context (E : env) (HE : env_ok E) (Hsep : (length (sep E) <= 1)%nat).
  Context (A : args custom_value) (HA : args_ok custom_value_ok A) (s : list Z).
  Context (float_plain : bool -> Z -> list Z -> Prop) (float_text : field -> Z -> option Z -> bool -> Z -> list Z -> Prop).
  Context (Hfloat : floats_shown E float_plain float_text).
  Notation shows1 := (one_shows (locale_of E) columns debug_char_text debug_string_text float_text).
  Notation shows := (value_shows (locale_of E) columns debug_char_text debug_string_text float_plain float_text (args_of A)).
  Notation ishows := (item_shows (locale_of E) columns debug_char_text debug_string_text float_plain float_text (args_of A)).

  Section field.
    Context (f : field) (ft rest : list Z) (p : nat).
    Context (Hok : field_ok f) (Hft : field_text f ft) (Hs : drop p s = ft ++ 125 :: rest).

    Lemma specs_cases t next :
      (parse_format_specs s p t next = Throw /\ (parse_fits t f = false \/ field_numbered next f = None)) \/
      exists v r v' r' next',
        parse_format_specs s p t next = Ok ((p + length ft)%nat, specs_of f (default 0 v) (default (-1) v') (default RNone r) (default RNone r'), next') /\
        parse_fits t f = true /\ field_numbered next f = Some next' /\
        handle_dynamic_spec A (default 0 v) (default RNone r)
          = match counted A (f_width (index_field next f).1) with Some o => Ok (default 0 o) | None => Throw end /\
        handle_dynamic_spec A (default (-1) v') (default RNone r')
          = match counted A (f_precision (index_field next f).1) with Some o => Ok (default (-1) o) | None => Throw end.
    Proof using All.
      rewrite (parse_format_specs_ok s p t f ft rest next) by done. rewrite index_field_eq. cbn [fst recount f_width f_precision].
      destruct (parse_fits t f); [|by left; auto]. unfold field_numbered. rewrite all_numbered_app.
      destruct (count_cases A (f_width f) next) as [[H1 H2]|(v & r & nx & H1 & H2 & H3)]; unfold count_numbered in H2; rewrite H1, H2; cbn [bind mbind option_bind]; [by left; auto|].
      destruct (count_cases A (f_precision f) nx) as [[H4 H5]|(v' & r' & nx' & H4 & H5 & H6)]; unfold count_numbered in H5; rewrite H4, H5; cbn [bind]; [by left; auto|].
      right. exists v, r, v', r', nx'. split_and!; [done|done|done|apply H3|].
      destruct (index_count_step next next (f_width f) nx (or_introl eq_refl) H2) as [_ Hs2].
      destruct (index_count_step nx _ (f_precision f) nx' Hs2 H5) as [-> _]. apply H6.
    Qed.

    Lemma close_ok next out : close s (Ok ((p + length ft)%nat, next, out)) = Ok (S (p + length ft), next, out).
    Proof using All.
      pose proof (drop_after _ _ _ _ Hs) as H. pose proof (drop_lt _ _ _ _ H). unfold close. cbn [bind]. rewrite decide_False by lia.
      rewrite (get_head _ _ _ _ H). cbn [bind]. rewrite decide_False by (intros []; done). done.
    Qed.

    Lemma counted_counts_ok f' : counts_ok (args_of A) f' <-> (exists w, counted A (f_width f') = Some w) /\ (exists p, counted A (f_precision f') = Some p).
    Proof using All.
      unfold counts_ok. split; intros [[w H1] [p' H2]]; (split; [exists w|exists p']); by apply counted_counts.
    Qed.
    Lemma counted_range least c o n : count_ok least c -> 0 <= least -> counted A c = Some o -> o = Some n -> 0 <= n <= int_max.
    Proof using All.
      intros Hc Hl H ->. destruct c as [|m|w|]; cbn in *; [done|injection H as ->; lia| |done].
      destruct (locate A w) as [a|]; [|done]. cbn in H. unfold count_of in H. destruct a as [[t z| | | | | | |]|]; try done. destruct (decide (0 <= z <= int_max)) as [Hz|]; [|done]. cbn in H. by injection H as ->.
    Qed.
    Lemma index_count_range least n c o m : count_ok least c -> 0 <= least -> counted A (index_count n c).1 = Some o -> o = Some m -> 0 <= m <= int_max.
    Proof using All.
      intros Hc Hl H ->. destruct c as [|k|w|]; cbn in *; [done|injection H as ->; lia| |done].
      destruct (index_which n w) as [w' n']. cbn in H. 
      destruct (locate A w') as [a|]; [|done]. cbn in H. unfold count_of in H. destruct a as [[t z| | | | | | |]|]; try done. destruct (decide (0 <= z <= int_max)) as [Hz|]; [|done]. cbn in H. by injection H as ->.
    Qed.

    Lemma one_fits_iff f' op v : counted A (f_precision f') = Some op -> one_fits (args_of A) f' v <-> fits1 f' op v.
    Proof using All.
      intros Hc. destruct v as [| | | |d b| |]; try done. cbn [one_fits fits1]. split.
      - intros H. by apply H, counted_counts.
      - intros H o Ho. apply counted_counts in Ho. rewrite Hc in Ho. by injection Ho as <-.
    Qed.

    (** One value: it is written, or refused. *)
    Lemma write_field_cases v next wr pr : scalar_ok v -> parse_fits (type_of v) f = true ->
      let fi := (index_field next f).1 in
      (exists ow op text, counted A (f_width fi) = Some ow /\ counted A (f_precision fi) = Some op /\
        admits (kind_of (one_of v)) fi /\ one_fits (args_of A) fi (one_of v) /\ shows1 fi (default 0 ow) op (one_of v) text /\
        forall out, write_value E out v (specs_of f (default 0 ow) (default (-1) op) wr pr) = Ok (out ++ text)) \/
      counted A (f_width fi) = None \/ counted A (f_precision fi) = None \/
      (~ admits (kind_of (one_of v)) fi /\ forall w p out, write_value E out v (specs_of f w p wr pr) = Throw) \/
      (exists ow op, counted A (f_width fi) = Some ow /\ counted A (f_precision fi) = Some op /\
        ~ one_fits (args_of A) fi (one_of v) /\
        forall out, write_value E out v (specs_of f (default 0 ow) (default (-1) op) wr pr) = Throw).
    Proof using All.
      intros Hv Hpf fi. 
      destruct (counted A (f_width fi)) as [ow|] eqn:Hw; [|by auto]. destruct (counted A (f_precision fi)) as [op|] eqn:Hp; [|by auto].
      unfold fi in *. rewrite index_field_eq in *. cbn [fst] in *.
      rewrite recount_admits by apply index_count_none. rewrite kind_of_one.
      assert (Hd : (type_of v = TChar /\ as_char (f_type f) /\ ~ (f_alternate f = false /\ zero_padded f = false)) \/
        ~ (type_of v = TChar /\ as_char (f_type f) /\ ~ (f_alternate f = false /\ zero_padded f = false))).
      { destruct (type_of v); try (right; by intros [? _]). destruct (f_type f) as [[]|]; try (right; by intros (_ & ? & _));
          destruct (f_alternate f), (zero_padded f); try (left; split_and!; [done|done|by intros []]); right; intros (_ & _ & H); by apply H. }
      destruct Hd as [(Hc & Hac & Hno)|Hyes].
      - right; right; right; left. destruct v as [t z|b|c|str|b|b|a chars|a]; try done; [cbn in Hc; by destruct (signed t)|]. split.
        + intros Ha. apply admits_parse in Ha as [_ Ha]. by apply Hno, Ha.
        + intros w p' out. by apply write_char_throw.
      - assert (Ha : admits (kind_of_ty (type_of v)) f).
        { apply admits_parse. split; [done|]. intros H1 H2. destruct (decide (f_alternate f = false /\ zero_padded f = false)); [done|]. by destruct Hyes. }
        set (f1 := recount f _ _) in *. assert (Hai : admits (kind_of (one_of v)) f1).
        { rewrite kind_of_one. apply recount_admits; [apply index_count_none|done]. }
        destruct (write_one_ok E HE Hsep float_plain float_text Hfloat v f1 (default 0 ow) op wr pr) as [(Hft1 & text & Ht & Hout)|[Hft1 Hout]]; [done|done| | | |..].
        + destruct ow as [n|]; [|cbn; unfold int_max; lia]. eapply (index_count_range 1); [apply Hok|lia|exact Hw|done].
        + intros n ->. destruct Hok as (_ & _ & Hpo & _). cbn [f1 recount f_precision] in Hp. eapply (index_count_range 0 _ _ _ n Hpo); [lia|exact Hp|done].
        + rewrite kind_of_one. intros Hk Hk' Hk''. destruct Ha as (_ & _ & _ & _ & _ & Hnp & _). cbn [f1 recount f_precision] in Hp.
          destruct (f_precision f) as [|n|w|]; [cbn in Hp; by injection Hp as <-|..]; (destruct Hnp as [?|[?|?]]; done).
        + left. exists ow, op, text. split_and!; [done|done|apply recount_admits; [apply index_count_none|done]| |exact Ht|exact Hout].
          by apply (one_fits_iff _ _ _ Hp).
        + right; right; right; right. exists ow, op. split_and!; [done|done| |exact Hout]. by rewrite (one_fits_iff _ _ _ Hp).
    Qed.

    Lemma on_format_specs_cases a id next out : get_arg A id = Ok a -> arg_ok custom_value_ok a ->
      let fi := (index_field next f).1 in
      (exists next' text, field_numbered next f = Some next' /\ value_fits (args_of A) (value_of a) (Some fi) /\
        shows (value_of a) (Some fi) text /\
        close s (on_format_specs seq_custom E A s id p next out) = Ok (S (p + length ft), next', out ++ text)) \/
      ((field_numbered next f = None \/ ~ value_fits (args_of A) (value_of a) (Some fi)) /\
        close s (on_format_specs seq_custom E A s id p next out) = Throw).
    Proof using All.
      intros Hget Ha fi. unfold on_format_specs. rewrite Hget. cbn [bind].
      pose proof (drop_after _ _ _ _ Hs) as He. pose proof (drop_lt _ _ _ _ He) as Hlt.
      assert (Hpa : forall k, admits k fi <-> admits k f).
      { intros k. unfold fi. rewrite index_field_eq. cbn [fst]. apply recount_admits, index_count_none. }
      destruct a as [v|[j|t elems]]; cbn [arg_ok custom_value_ok value_of value_fits seq_custom] in *.
      - (* one value *)
        destruct (specs_cases (type_of v) next) as [[Hp Hor]|(w & r & w' & r' & nx & Hp & Hfits & Hnum & Hw & Hpr)]; rewrite Hp; cbn [bind].
        { right. split; [|done]. destruct Hor as [Hf|Hf]; [|by left]. right. rewrite Hpa, kind_of_one. intros [Had _]. apply admits_parse in Had as [Had _]. congruence. }
        cbn [width precision width_ref precision_ref specs_of]. rewrite Hw, Hpr. fold fi.
        assert (Hcok : counts_ok (args_of A) fi -> (exists ow, counted A (f_width fi) = Some ow) /\ (exists op, counted A (f_precision fi) = Some op)) by apply counted_counts_ok.
        destruct (write_field_cases v next (default RNone r) (default RNone r') Ha Hfits) as [(ow & op & text & H1 & H2 & H3 & H3' & H4 & H5)|[H|[H|[[Hn H]|(ow & op & H1 & H2 & Hn & H)]]]].
        + fold fi in H1, H2, H3, H3', H4. left. exists nx, text. split; [done|]. split; [split_and!; [done|apply counted_counts_ok; eauto|done]|].
          split; [eapply shows_field; [by apply counted_counts|by apply counted_counts|done]|].
          rewrite H1, H2. cbn [bind]. rewrite decide_False by lia. rewrite (get_head _ _ _ _ He). cbn [bind]. rewrite decide_False by (intros []; done).
          change (set_precision (set_width (specs_of f (default 0 w) (default (-1) w') (default RNone r) (default RNone r')) (default 0 ow)) (default (-1) op))
            with (specs_of f (default 0 ow) (default (-1) op) (default RNone r) (default RNone r')).
          rewrite H5. cbn [bind]. apply close_ok.
        + fold fi in H. right. rewrite H. split; [|done]. right. intros (_ & Hc & _). destruct (Hcok Hc) as [[? ?] _]. congruence.
        + fold fi in H. right. rewrite H. split; [|by destruct (counted A (f_width fi))]. right. intros (_ & Hc & _). destruct (Hcok Hc) as [_ [? ?]]. congruence.
        + fold fi in Hn. right. split; [right; intros [? _]; done|].
          destruct (counted A (f_width fi)) as [ow|]; cbn [bind]; [|done]. destruct (counted A (f_precision fi)) as [op|]; cbn [bind]; [|done].
          rewrite decide_False by lia. rewrite (get_head _ _ _ _ He). cbn [bind]. rewrite decide_False by (intros []; done).
          change (set_precision (set_width (specs_of f (default 0 w) (default (-1) w') (default RNone r) (default RNone r')) (default 0 ow)) (default (-1) op))
            with (specs_of f (default 0 ow) (default (-1) op) (default RNone r) (default RNone r')).
          by rewrite H.
        + fold fi in H1, H2, Hn. right. split; [right; by intros (_ & _ & ?)|]. rewrite H1, H2. cbn [bind].
          rewrite decide_False by lia. rewrite (get_head _ _ _ _ He). cbn [bind]. rewrite decide_False by (intros []; done).
          change (set_precision (set_width (specs_of f (default 0 w) (default (-1) w') (default RNone r) (default RNone r')) (default 0 ow)) (default (-1) op))
            with (specs_of f (default 0 ow) (default (-1) op) (default RNone r) (default RNone r')).
          by rewrite H.
      - (* join *)
        unfold join_custom.
        destruct (specs_cases (j_type j) next) as [[Hp Hor]|(w & r & w' & r' & nx & Hp & Hfits & Hnum & Hw & Hpr)]; rewrite Hp; cbn [bind].
        { right. split; [|done]. destruct Hor as [Hf|Hf]; [|by left]. right. rewrite Hpa. intros [Had _]. apply admits_parse in Had as [Had _]. congruence. }
        cbn [width precision width_ref precision_ref specs_of]. rewrite Hw, Hpr. fold fi.
        destruct (char_check (j_type j) f (default 0 w) (default (-1) w') (default RNone r) (default RNone r') Hfits) as [[-> Hn]|(b & -> & Had)]; cbn [bind].
        { right. split; [|done]. right. rewrite Hpa. by intros [? _]. }
        destruct (decide (length (j_elems j) = 0%nat)) as [Hnil%nil_length_inv|Hne].
        { rewrite Hnil. cbn [length for_up bind fmap list_fmap].
          left. exists nx, []. split; [done|]. split; [split_and!; [by apply Hpa|done|done]|]. split.
          - apply (shows_joined_field _ _ _ _ _ _ _ _ [] _ _ []). constructor.
          - rewrite app_nil_r. apply close_ok. }
        assert (Hcok : counts_ok (args_of A) fi <-> (exists ow, counted A (f_width fi) = Some ow) /\ (exists op, counted A (f_precision fi) = Some op)) by apply counted_counts_ok.
        destruct (counted A (f_width fi)) as [ow|] eqn:How; [destruct (counted A (f_precision fi)) as [op|] eqn:Hop|].
        + cbn [bind].
          change (fun (i : nat) (out0 : list Z) => let* v := get (j_elems j) i in
            write_value E (if decide (i = 0%nat) then out0 else out0 ++ j_sep j) v
              (set_precision (set_width (specs_of f (default 0 w) (default (-1) w') (default RNone r) (default RNone r')) (default 0 ow)) (default (-1) op)))
          with (fun (i : nat) (out0 : list Z) => let* v := get (j_elems j) i in
            write_value E (if decide (i = 0%nat) then out0 else out0 ++ j_sep j) v
              (specs_of f (default 0 ow) (default (-1) op) (default RNone r) (default RNone r'))).
          assert (Hel : forall v, v ∈ j_elems j ->
            (one_fits (args_of A) fi (one_of v) /\ exists text, shows1 fi (default 0 ow) op (one_of v) text /\
              forall out, write_value E out v (specs_of f (default 0 ow) (default (-1) op) (default RNone r) (default RNone r')) = Ok (out ++ text)) \/
            (~ one_fits (args_of A) fi (one_of v) /\
              forall out, write_value E out v (specs_of f (default 0 ow) (default (-1) op) (default RNone r) (default RNone r')) = Throw)).
          { intros v Hv. unfold join_ok in Ha. rewrite Forall_forall in Ha. destruct (Ha v Hv) as [Hv1 Hv2]. rewrite <- Hv2 in Hfits.
            destruct (write_field_cases v next (default RNone r) (default RNone r') Hv1 Hfits)
              as [(ow' & op' & text & H1 & H2 & H3 & H3' & H4 & H5)|[H|[H|[[Hn H]|(ow' & op' & H1 & H2 & Hn & H)]]]].
            - fold fi in H1, H2, H3', H4. rewrite How in H1. rewrite Hop in H2. injection H1 as <-. injection H2 as <-. left. eauto.
            - fold fi in H. congruence.
            - fold fi in H. congruence.
            - fold fi in Hn. destruct Hn. rewrite kind_of_one, Hv2. by apply Hpa.
            - fold fi in H1, H2, Hn. rewrite How in H1. rewrite Hop in H2. injection H1 as <-. injection H2 as <-. right. eauto. }
          assert (Hall : (forall v, v ∈ j_elems j -> exists text, shows1 fi (default 0 ow) op (one_of v) text /\
              forall out, write_value E out v (specs_of f (default 0 ow) (default (-1) op) (default RNone r) (default RNone r')) = Ok (out ++ text)) /\
              Forall (one_fits (args_of A) fi) (one_of <$> j_elems j) \/
            exists k v, j_elems j !! k = Some v /\ ~ one_fits (args_of A) fi (one_of v) /\
              forall out, write_value E out v (specs_of f (default 0 ow) (default (-1) op) (default RNone r) (default RNone r')) = Throw).
          { clear -Hel. induction (j_elems j) as [|v l IH]; [left; split; [by intros ? ?%elem_of_nil|constructor]|].
            destruct (Hel v) as [(Hf1 & Hw1)|[Hn Hw1]]; [by left| |right; exists 0%nat, v; split_and!; done].
            destruct IH as [[Hw2 Hf2]|(k & v' & Hk & Hn)]; [intros x Hx; apply Hel; by right|left|right; exists (S k), v'; split; [exact Hk|exact Hn]].
            split; [|by constructor]. intros x Hx. apply elem_of_cons in Hx as [->|Hx]; [done|by apply Hw2]. }
          destruct Hall as [[Hws Hfs]|(k & v & Hk & Hn & Hthrow)].
          * left. destruct (for_up_separated E HE Hsep float_plain float_text Hfloat (fun v t => shows1 fi (default 0 ow) op (one_of v) t)
              (fun v out => write_value E out v (specs_of f (default 0 ow) (default (-1) op) (default RNone r) (default RNone r'))) (j_elems j) (j_sep j) Hws)
              as (texts & Ht & Hout).
            exists nx, (separated (j_sep j) texts). split; [done|]. split; [split_and!; [by apply Hpa|intros _; apply Hcok; eauto|done]|]. split.
            { apply shows_joined_field. apply Forall2_fmap_l. eapply Forall2_impl; [exact Ht|]. intros v t Hvt.
              exists ow, op. split_and!; [by apply counted_counts|by apply counted_counts|exact Hvt]. }
            specialize (Hout out). rewrite Hout. cbn [bind]. apply close_ok.
          * right. split.
            { right. intros (_ & _ & Hall). rewrite Forall_fmap, Forall_lookup in Hall. by apply Hn, (Hall k v). }
            rewrite for_up_throw; [done| |].
            { intros i o Hi. destruct (lookup_lt_is_Some_2 (j_elems j) i ltac:(lia)) as [v' Hv']. unfold get. rewrite Hv'. cbn [bind].
              destruct (Hel v') as [(_ & text & _ & Hw1)|[_ Hw1]]; [by eapply elem_of_list_lookup_2|right; rewrite Hw1; eauto|left; by rewrite Hw1]. }
            { exists k. split; [apply lookup_lt_Some in Hk; lia|]. intros o. unfold get. rewrite Hk. cbn [bind]. apply Hthrow. }
        + right. split; [right; intros (_ & Hc & _); apply Hcok in Hc as [_ [? ?]]; [done|intros Hx%fmap_nil_inv; by rewrite Hx in Hne]|].
          destruct (j_elems j) as [|v l]; [done|]. cbn [length for_up]. done.
        + right. split; [right; intros (_ & Hc & _); apply Hcok in Hc as [[? ?] _]; [done|intros Hx%fmap_nil_inv; by rewrite Hx in Hne]|].
          destruct (j_elems j) as [|v l]; [done|]. cbn [length for_up]. done.
      - (* a sequence *)
        destruct (vformat_brackets E HE Hsep float_plain float_text Hfloat t elems out Ha) as [(HQ & texts & Ht & Hout)|[HQ Hout]]; rewrite Hout; cbn [bind].
        2: right; split; [right; by intros [_ ?]|done].
        assert (Hfi : fi = no_options <-> f = no_options).
        { unfold fi. rewrite index_field_eq. cbn [fst]. apply recount_no_options; apply index_count_none. }
        destruct (no_options_text f ft Hok Hft) as [[Hf Hft0]|[Hf (c & l & Hft0 & Hc)]].
        + left. exists next, ([91] ++ separated [44; 32] texts ++ [93]). split; [by rewrite Hf|]. split; [split; [by apply Hfi|done]|].
          split; [by constructor|]. assert (Hp0 : (p + length ft)%nat = p) by (rewrite Hft0; cbn; lia).
          pose proof (close_ok next (out ++ [91] ++ separated [44; 32] texts ++ [93])) as Hc. rewrite Hp0 in Hc |- *. exact Hc.
        + right. split; [right; rewrite Hfi; by intros [? _]|]. unfold close. cbn [bind]. pose proof Hs as Hs'. rewrite Hft0 in Hs'. cbn [app] in Hs'. pose proof (drop_lt _ _ _ _ Hs'). rewrite decide_False by lia.
          rewrite (get_head _ _ _ _ Hs'). cbn [bind]. by rewrite decide_True.
    Qed.
  End field.

  (** ** Items *)

  Lemma write_arg_cases a out : arg_ok custom_value_ok a ->
    (value_fits (args_of A) (value_of a) None /\ exists text, shows (value_of a) None text /\ write_arg_default seq_custom E A out a = Ok (out ++ text)) \/
    (~ value_fits (args_of A) (value_of a) None /\ write_arg_default seq_custom E A out a = Throw).
  Proof using All.
    intros Ha. destruct a as [v|[j|t elems]]; cbn [arg_ok custom_value_ok value_of value_fits write_arg_default seq_custom] in *.
    - destruct (write_plain_ok E HE Hsep float_plain float_text Hfloat v Ha) as [(HQ & text & Ht & Hout)|[HQ Hout]]; [left|right; split; [done|apply Hout]].
      split; [done|]. exists text. split; [by constructor|]. apply Hout.
    - destruct (join_plain_ok E HE Hsep float_plain float_text Hfloat A j Ha) as [(HQ & texts & Ht & Hout)|[HQ Hout]]; [left|right; split; [done|by rewrite Hout]].
      split; [done|]. exists (separated (j_sep j) texts). split; [by constructor|]. by rewrite Hout.
    - destruct (vformat_brackets E HE Hsep float_plain float_text Hfloat t elems out Ha) as [(HQ & texts & Ht & Hout)|[HQ Hout]]; [left|right; split; [done|by rewrite Hout]].
      split; [done|]. exists ([91] ++ separated [44; 32] texts ++ [93]). split; [by constructor|]. by rewrite Hout.
  Qed.

  Lemma locate_ok w a : locate A w = Some a -> arg_ok custom_value_ok a.
  Proof using HA.
    clear -HA. intros H. assert (Hat : forall i, arg_at A i = Some a -> arg_ok custom_value_ok a).
    { intros i Hi. unfold arg_at in Hi. destruct (decide (0 <= i)); [|done]. unfold args_ok in HA. rewrite Forall_lookup in HA. by eapply HA. }
    destruct w; cbn in H; [done|by eapply Hat..].
  Qed.

  Notation field_at := (parse_replacement_field seq_custom E A s).
  Notation icases := (item_cases field_at (item_fits (args_of A)) ishows).
  Lemma show_cases w i p rest next out : which_ok w -> which_text w i -> drop p s = ([123] ++ i ++ [125]) ++ rest ->
    icases (Show w None) ([123] ++ i ++ [125]) p next out.
  Proof using All.
    intros Hw Hi Hs. unfold item_cases, parse_replacement_field. rewrite (replacement_plain _ _ _ _ w i p rest next out Hw Hi Hs).
    cbn [asked_by all_numbered index_item].
    destruct (on_arg_id_cases A w next) as [[-> Hor]|(id & nx & -> & Hnum & Hget)]; cbn [bind].
    - right. split; [|done]. destruct Hor as [->|Hno]; [by left|]. right. destruct (index_which next w) as [w' n']. cbn in *.
      intros (v & Hf & _). apply locate_finds in Hf as (a & Ha & _). congruence.
    - rewrite Hnum. unfold on_replacement_field. rewrite Hget. destruct (index_which next w) as [w' n']. cbn [fst item_fits] in *.
      destruct (locate A w') as [a|] eqn:Ha; cbn [bind].
      + assert (Hf : finds (args_of A) w' (value_of a)) by (apply locate_finds; eauto).
        destruct (write_arg_cases a out (locate_ok _ _ Ha)) as [(HQ & t & Ht & ->)|[HQ ->]].
        2: { right. split; [right|done]. intros (v & Hv & Hvf). apply HQ. apply locate_finds in Hv as (a' & Ha' & ->). congruence. }
        left. exists nx, t. split; [done|].
        split; [by exists (value_of a)|]. split; [by eapply shows_arg|]. done.
      + right. split; [|done]. right. intros (v & Hf & _). apply locate_finds in Hf as (a & Ha' & _). congruence.
  Qed.

  Lemma field_cases w i f ft p rest next out : which_ok w -> which_text w i -> field_ok f -> field_text f ft ->
    drop p s = ([123] ++ i ++ [58] ++ ft ++ [125]) ++ rest -> icases (Show w (Some f)) ([123] ++ i ++ [58] ++ ft ++ [125]) p next out.
  Proof using All.
    intros Hw Hi Hok Hft Hs. unfold item_cases, parse_replacement_field. rewrite (replacement_specs _ _ _ _ w i ft p rest next out Hw Hi Hs).
    rewrite <- !app_assoc in Hs. cbn [app] in Hs.
    pose proof (drop_next _ _ _ _ Hs) as Hs1. pose proof (drop_after _ _ _ _ Hs1) as Hs2. pose proof (drop_lt _ _ _ _ Hs2) as Hl2.
    pose proof (drop_next _ _ _ _ Hs2) as Hs3. cbn [asked_by all_numbered index_item].
    destruct (on_arg_id_cases A w next) as [[-> Hor]|(id & nx & -> & Hnum & Hget)]; cbn [bind].
    - right. split; [|done]. destruct Hor as [->|Hno]; [by left|]. right. destruct (index_which next w) as [w' n']. cbn in Hno. destruct (index_field n' f) as [f' n'']. cbn.
      intros (v & Hf & _). apply locate_finds in Hf as (a & Ha & _). congruence.
    - rewrite Hnum. cbn [mbind option_bind]. destruct (index_which_step next next w nx (or_introl eq_refl) Hnum) as [_ Hstep].
      destruct (index_which next w) as [w' n'] eqn:Hiw. cbn [fst snd] in *.
      destruct (locate A w') as [a|] eqn:Ha.
      + assert (Hf : finds (args_of A) w' (value_of a)) by (apply locate_finds; eauto).
        assert (Hfun : forall v, finds (args_of A) w' v -> v = value_of a).
        { intros v Hv. apply locate_finds in Hv as (a' & Ha' & ->). congruence. }
        destruct (on_format_specs_cases f ft rest _ Hok Hft Hs3 a id nx out Hget (locate_ok _ _ Ha)) as [(nx' & t & H1 & H2 & H3 & H4)|[Hor Hthrow]].
        * left. exists nx', t. split; [exact H1|]. destruct (index_field_step nx n' f nx' Hstep H1) as [Hif _].
          destruct (index_field n' f) as [f' n'']. cbn [fst] in *. subst f'. split; [by exists (value_of a)|]. split; [by eapply shows_arg|].
          rewrite H4. do 3 f_equal. cbn. rewrite !app_length. cbn. rewrite app_length. cbn. lia.
        * right. split; [|exact Hthrow]. fold (field_numbered nx f). destruct (field_numbered nx f) as [nx'|] eqn:Hfn; [|by left].
          right. destruct Hor as [?|Hor]; [done|]. destruct (index_field_step nx n' f nx' Hstep Hfn) as [Hif _].
          destruct (index_field n' f) as [f' n'']. cbn [fst] in *. subst f'. intros (v & Hv & Hvf). rewrite (Hfun v Hv) in Hvf. done.
      + right. split.
        * right. destruct (index_field n' f) as [f' n'']. cbn. intros (v & Hf & _). apply locate_finds in Hf as (a & Ha' & _). congruence.
        * unfold on_format_specs. by rewrite Hget.
  Qed.

  (** ** Format strings *)

  Lemma progress_here : progress s (parse_replacement_field seq_custom E A s).
  Proof using All. apply (progress_ok seq_custom custom_value_ok E HE Hsep); [by apply seq_custom_safe|done]. Qed.

  Lemma item_text c : item_fits (args_of A) (Text c) /\ ishows (Text c) [c].
  Proof using Type. split; [done|constructor]. Qed.
  Lemma brace_here p rest next out : drop p s = 123 :: 123 :: rest -> field_at p next out = Ok (S (S p), next, out ++ [123]).
  Proof using Type. apply replacement_brace. Qed.
  Lemma vformat_cases ts : template_text ts s ->
    (one_way ts /\ Forall (item_fits (args_of A)) (index 0 ts) /\ exists texts, Forall2 ishows (index 0 ts) texts /\ vformat E A s = Ok (concat texts)) \/
    (~ (one_way ts /\ Forall (item_fits (args_of A)) (index 0 ts)) /\ vformat E A s = Throw).
  Proof using All.
    intros Ht. unfold vformat.
    destruct (scan_cases s field_at _ _ item_text brace_here show_cases field_cases ts progress_here Ht) as [(H1 & H2 & texts & H3 & H4)|[H1 H2]].
    - left. split; [done|]. split; [done|]. exists texts. split; [done|]. by apply vformat_to_ok; [apply progress_here|].
    - right. split; [done|]. by apply vformat_to_ok; [apply progress_here|].
  Qed.

  (** A brace that is not part of any item. *)
  Lemma vformat_lone ts pre rest : template_text ts pre -> s = pre ++ 125 :: rest -> head rest <> Some 125 -> vformat E A s = Throw.
  Proof using All.
    intros Ht Hs Hr. unfold vformat. apply vformat_to_ok; [apply progress_here|].
    destruct (template_cases s field_at _ _ item_text brace_here show_cases field_cases ts pre Ht 0 (125 :: rest) 0 0 []) as [(nx & texts & _ & _ & _ & H4)|[_ Hthrow]]; [by rewrite drop_0|by left| |done].
    apply H4. assert (Hd : drop (0 + length pre) s = 125 :: rest) by (rewrite Hs; apply drop_app). apply parses_lone; [by eapply drop_head|].
    apply drop_next in Hd. intros H. apply Hr. rewrite <- Hd. rewrite <- (Nat.add_0_r (S (0 + length pre))), <- lookup_drop in H. by destruct (drop _ s).
  Qed.

  Lemma field_closed p next out b next' out' : parse_replacement_field seq_custom E A s p next out = Ok (b, next', out') ->
    s !! S p = Some 123 \/ exists q, (p < q)%nat /\ s !! q = Some 125.
  Proof using All.
    unfold parse_replacement_field, replacement_field. destruct (decide (S p = length s)); [done|].
    unfold get at 1. destruct (s !! S p) as [c|] eqn:Hc; cbn [bind]; [|done].
    destruct (decide (c = 125)) as [->|H1]; [intros _; right; exists (S p); split; [lia|done]|].
    destruct (decide (c = 123)) as [->|H2]; [by left|]. intros HP. right.
    pose proof (parse_arg_id_safe s (S p) (lookup_lt_Some _ _ _ Hc)) as Hi.
    destruct (parse_arg_id s (S p)) as [[b1 id]| | |]; cbn [bind safe] in *; try done.
    destruct (on_arg_id A id next) as [[id' nx]| | |]; cbn [bind] in HP; try done.
    destruct (decide (b1 <> length s)) as [Hb1|Hb1]; [|done].
    unfold get at 1 in HP. destruct (s !! b1) as [c1|] eqn:Hc1; cbn [bind] in HP; [|done].
    destruct (decide (c1 = 125)) as [->|H3]; [exists b1; split; [lia|done]|].
    destruct (decide (c1 = 58)) as [->|H4]; [|done].
    pose proof (on_format_specs_safe seq_custom custom_value_ok E HE Hsep (seq_custom_safe E HE Hsep) A s id' (S b1) nx out HA) as Hof.
    pose proof (lookup_lt_Some _ _ _ Hc1). specialize (Hof ltac:(lia)).
    destruct (on_format_specs seq_custom E A s id' (S b1) nx out) as [[[b2 n2] o2]| | |]; cbn [bind safe] in *; try done.
    destruct (decide (b2 = length s)); [done|]. unfold get in HP. destruct (s !! b2) as [c2|] eqn:Hc2; cbn [bind] in HP; [|done].
    destruct (decide (c2 <> 125)) as [|H5]; [done|]. exists b2. split; [lia|]. rewrite Hc2. f_equal. clear -H5. lia.
  Qed.
  Lemma vformat_open ts pre rest : template_text ts pre -> s = pre ++ 123 :: rest -> head rest <> Some 123 -> Forall (fun c => c <> 125) rest ->
    vformat E A s = Throw.
  Proof using All.
    intros Ht Hs Hh Hr. unfold vformat. apply vformat_to_ok; [apply progress_here|].
    destruct (template_cases s field_at _ _ item_text brace_here show_cases field_cases ts pre Ht 0 (123 :: rest) 0 0 []) as [(nx & texts & _ & _ & _ & H4)|[_ Hthrow]]; [by rewrite drop_0|by left| |done].
    apply H4. assert (Hd : drop (0 + length pre) s = 123 :: rest) by (rewrite Hs; apply drop_app). clear H4. set (p := (0 + length pre)%nat) in *.
    pose proof (drop_head _ _ _ _ Hd) as Hp. pose proof (drop_next _ _ _ _ Hd) as Hd'.
    set (out := [] ++ concat texts). clearbody out.
    pose proof (parse_replacement_field_safe seq_custom custom_value_ok E HE Hsep (seq_custom_safe E HE Hsep) A s p nx out HA (lookup_lt_Some _ _ _ Hp)) as Hsafe.
    destruct (parse_replacement_field seq_custom E A s p nx out) as [[[b n'] o']| | |] eqn:HP; cbn [safe] in Hsafe; try done.
    - exfalso. destruct (field_closed p nx out b n' o' HP) as [H|(q & Hq & H)].
      + apply Hh. rewrite <- (Nat.add_0_r (S p)), <- lookup_drop, Hd' in H. by destruct rest.
      + replace q with (S p + (q - S p))%nat in H by lia. rewrite <- lookup_drop, Hd' in H. rewrite Forall_lookup in Hr. by apply Hr in H.
    - by eapply (parses_error _ _ p nx out Throw).
  Qed.
End items.
