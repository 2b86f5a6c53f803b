(** The check of a format string against the types of its arguments. *)
From Verif Require Import Base.Cpp Base.Mem Model.Numeric Model.FmtInt Model.Utf8 Model.Escape Model.Dragonbox Model.FloatLayout Model.FloatDigits Model.Format Model.FormatCheck.
From Verif Require Import Spec.FormatSpec Spec.Utf8Spec Spec.EscapeSpec Spec.FieldSpec Spec.TemplateSpec Spec.CheckSpec.
From Verif Require Import Proofs.FmtIntProofs Proofs.Utf8Decode Proofs.Utf8Proofs Proofs.EscapeProofs Proofs.FormatWrite Proofs.GroupingProofs.
From Verif Require Import Proofs.FormatValue Proofs.FormatScan Proofs.FormatSafe Proofs.FormatParse Proofs.TemplateProofs Proofs.TemplateConverse.
Set Default Proof Using "Type".
Local Open Scope Z_scope.
Ltac Zify.zify_post_hook ::= idtac.

(** ** The signature of the types of arguments *)

Definition type_of_ctype (t : ctype) : value_type :=
  match t with CtScalar t => TOne (kind_of_ty t) | CtJoin t => TJoined (kind_of_ty t) | CtSeq => TSequence end.
Fixpoint names_from (n : Z) (ps : list param) : list (list Z * Z) :=
  match ps with [] => [] | p :: ps => match p_name p with Some name => [(name, n)] | None => [] end ++ names_from (n + 1) ps end.
Definition signature_of (ps : list param) : signature := Signature (type_of_ctype ∘ p_type <$> ps) (names_from 0 ps).

Lemma names_from_find n ps : forall k,
  match list_find (fun p => p_name p = Some n) ps with
  | Some (i, _) => exists j, names_from k ps !! j = Some (n, k + Z.of_nat i) /\ forall j' i', (j' < j)%nat -> names_from k ps !! j' <> Some (n, i')
  | None => forall j i', names_from k ps !! j <> Some (n, i')
  end.
Proof.
  induction ps as [|p ps IH]; intros k; [done|]. cbn [list_find]. destruct (decide (p_name p = Some n)) as [Hp|Hp].
  - cbn [names_from]. rewrite Hp. exists 0%nat. cbn. split; [do 2 f_equal; lia|]. lia.
  - specialize (IH (k + 1)). destruct (list_find _ ps) as [[i q]|]; cbn [fmap option_fmap option_map prod_map fst snd].
    + destruct IH as (j & Hj & Hno). cbn [names_from]. destruct (p_name p) as [m|].
      * exists (S j). split; [etrans; [exact Hj|]; do 2 f_equal; cbn; lia|]. intros [|j'] i' Hlt; [cbn; intros [= ->]; done|]. apply Hno. lia.
      * exists j. split; [etrans; [exact Hj|]; do 2 f_equal; cbn; lia|done].
    + cbn [names_from]. destruct (p_name p) as [m|]; [|exact IH]. intros [|j] i'; [cbn; intros [= ->]; done|]. apply IH.
Qed.

Global Instance ty_eq_dec : EqDecision ty.
Proof. solve_decision. Defined.
Global Instance ctype_eq_dec : EqDecision ctype.
Proof. solve_decision. Defined.

Section check.
  Context (ps : list param) (s : list Z).
  Notation Sg := (signature_of ps).

  Lemma finds_type_at_iff i t : finds_type Sg (ArgAt i) t <-> 0 <= i /\ exists p, ps !! Z.to_nat i = Some p /\ t = type_of_ctype (p_type p).
  Proof.
    split.
    - inversion 1 as [? ? Hi Ht|]; subst. split; [done|]. cbn in Ht. rewrite list_lookup_fmap in Ht. destruct (ps !! Z.to_nat i) as [p|]; [|done]. injection Ht as <-. by exists p.
    - intros (Hi & p & Hp & ->). constructor; [done|]. cbn. by rewrite list_lookup_fmap, Hp.
  Qed.
  Lemma finds_type_at_some i : 0 <= i -> (i < num_args ps <-> exists t, finds_type Sg (ArgAt i) t).
  Proof.
    intros Hi. unfold num_args. split.
    - intros Hlt. destruct (lookup_lt_is_Some_2 ps (Z.to_nat i) ltac:(lia)) as [p Hp]. eexists. apply finds_type_at_iff. eauto.
    - intros (t & Ht). apply finds_type_at_iff in Ht as (_ & p & Hp & _). apply lookup_lt_Some in Hp. lia.
  Qed.

  Lemma check_id_cases w next : which_ok w ->
    (check_on_arg_id ps (id_of w) next = Throw /\ (numbered next w = None \/ forall t, ~ finds_type Sg (index_which next w).1 t)) \/
    (exists id next' p, check_on_arg_id ps (id_of w) next = Ok (id, next') /\ numbered next w = Some next' /\ 0 <= id < num_args ps /\
      ps !! Z.to_nat id = Some p /\ forall t, finds_type Sg (index_which next w).1 t <-> t = type_of_ctype (p_type p)).
  Proof.
    assert (Hat : forall i, 0 <= i -> (i >= num_args ps /\ forall t, ~ finds_type Sg (ArgAt i) t) \/
      (i < num_args ps /\ exists p, ps !! Z.to_nat i = Some p /\ forall t, finds_type Sg (ArgAt i) t <-> t = type_of_ctype (p_type p))).
    { intros i Hi. destruct (decide (i < num_args ps)) as [Hlt|Hge].
      - right. split; [done|]. pose proof Hlt as [t Ht]%finds_type_at_some; [|done]. apply finds_type_at_iff in Ht as (_ & p & Hp & _). exists p. split; [done|].
        intros t'. rewrite finds_type_at_iff. split; [intros (_ & q & Hq & ->); congruence|]. intros ->. eauto.
      - left. split; [lia|]. intros t Ht. apply Hge, finds_type_at_some; eauto. }
    intros Hw. destruct w as [|i|n]; cbn.
    - unfold next_arg_id. destruct (decide (next < 0)); [by left; auto|]. cbn [bind].
      destruct (Hat next ltac:(lia)) as [[Hge Hno]|(Hlt & p & Hp & Hiff)]; [rewrite decide_True by lia; left; split; [done|by right]|].
      rewrite decide_False by lia. right. exists next, (next + 1), p. split_and!; try done; lia.
    - unfold check_arg_id. destruct (decide (next > 0)); [by left; auto|]. cbn [bind]. cbn in Hw.
      destruct (Hat i ltac:(lia)) as [[Hge Hno]|(Hlt & p & Hp & Hiff)]; [rewrite decide_True by lia; left; split; [done|by right]|].
      rewrite decide_False by lia. right. exists i, (-1), p. split_and!; try done; lia.
    - unfold get_arg_index_by_name. pose proof (names_from_find n ps 0) as Hn. destruct (list_find _ ps) as [[i q]|] eqn:Hf.
      + destruct Hn as (j & Hj & Hno). rewrite decide_False by lia. right. apply list_find_Some in Hf as (Hi & _).
        exists (Z.of_nat i), next, q. split; [done|]. split; [done|]. split; [unfold num_args; apply lookup_lt_Some in Hi; lia|]. split; [by rewrite Nat2Z.id|].
        intros t. assert (Ht : finds_type Sg (ArgAt (Z.of_nat i)) t <-> t = type_of_ctype (p_type q)).
        { rewrite finds_type_at_iff, Nat2Z.id. split; [intros (_ & q' & Hq & ->); congruence|]. intros ->. split; [lia|eauto]. }
        rewrite <- Ht. split.
        * inversion 1 as [|? k i' ? Hk Hno' Hf']; subst. cbn in Hk, Hno'. destruct (decide (k < j)%nat) as [Hlt|Hlt]; [by destruct (Hno _ _ Hlt Hk)|].
          destruct (decide (j < k)%nat) as [Hlt'|Hlt']; [by destruct (Hno' _ (0 + Z.of_nat i) Hlt')|]. assert (k = j) as -> by lia. rewrite Hj in Hk. by injection Hk as <-.
        * intros Hf'. apply (finds_type_named _ n j (Z.of_nat i)); [exact Hj| |done]. intros k' i' Hlt. by apply Hno.
      + rewrite decide_True by lia. left. split; [done|]. right. intros t Ht. inversion Ht as [|? k i' ? Hk _ _]; subst. by destruct (Hn k i').
  Qed.

  Lemma integral_counting t : is_integral_type t = true <-> counting (type_of_ctype t).
  Proof. unfold counting. destruct t as [[]|[]|]; cbn; split; try done; auto; intros [?|[?|[?|?]]]; done. Qed.
  Lemma count_check_cases least c next : count_ok least c ->
    (count_res c next = Throw /\ count_numbered next c = None) \/
    (exists v r next', count_res c next = Ok (v, r, next') /\ count_numbered next c = Some next' /\
      ((check_dynamic_spec ps (default RNone r) = Ok tt /\ count_checks Sg (index_count next c).1) \/
       (check_dynamic_spec ps (default RNone r) = Throw /\ ~ count_checks Sg (index_count next c).1))).
  Proof.
    assert (Hat : forall i, 0 <= i -> (check_dynamic_spec ps (RIndex i) = Ok tt /\ exists t, finds_type Sg (ArgAt i) t /\ counting t) \/
      (check_dynamic_spec ps (RIndex i) = Throw /\ ~ exists t, finds_type Sg (ArgAt i) t /\ counting t)).
    { intros i Hi. cbn. destruct (decide (i >= num_args ps)) as [Hge|Hlt].
      - right. split; [done|]. intros (t & Ht & _). assert (i < num_args ps) by (apply finds_type_at_some; eauto). lia.
      - assert (Hlt' : i < num_args ps) by lia. apply finds_type_at_some in Hlt' as [t Ht]; [|done]. pose proof Ht as (_ & p & Hp & ->)%finds_type_at_iff. unfold get. rewrite Hp. cbn [bind].
        destruct (is_integral_type (p_type p)) eqn:Hint; [left|right]; (split; [done|]); [apply integral_counting in Hint; eauto|].
        intros (t & Ht' & Hc). apply finds_type_at_iff in Ht' as (_ & q & Hq & ->). assert (q = p) as -> by congruence. apply integral_counting in Hc. congruence. }
    intros Hok. unfold count_numbered. destruct c as [|n|w|]; cbn -[check_dynamic_spec].
    1, 2, 4: right; eexists _, _, _; split; [done|]; split; [done|]; by left.
    destruct w as [|i|n]; cbn -[check_dynamic_spec].
    - unfold next_arg_id. destruct (decide (next < 0)); [by left|]. right. eexists _, _, _. split; [done|]. split; [done|]. apply Hat. lia.
    - unfold check_arg_id. destruct (decide (next > 0)); [by left|]. right. eexists _, _, _. split; [done|]. split; [done|]. apply Hat. apply Hok.
    - right. eexists _, _, _. split; [done|]. split; [done|]. by left.
  Qed.

  Section field.
    Context (f : field) (ft rest : list Z) (p : nat).
    Context (Hok : field_ok f) (Hft : field_text f ft) (Hs : drop p s = ft ++ 125 :: rest).

    Lemma check_parse_cases t next : t <> CtSeq ->
      (exists next', check_parse ps s t p next = Ok ((p + length ft)%nat, next') /\ field_numbered next f = Some next' /\
        type_checks Sg (type_of_ctype t) (Some (index_field next f).1)) \/
      (check_parse ps s t p next = Throw /\ (field_numbered next f = None \/ ~ type_checks Sg (type_of_ctype t) (Some (index_field next f).1))).
    Proof using All.
      intros Hne. assert (exists u, (check_parse ps s t p next =
        let* (begin, sp, next) := parse_format_specs s p u next in
        let* _ := check_dynamic_spec ps (width_ref sp) in
        let* _ := check_dynamic_spec ps (precision_ref sp) in
        let* _ := match u with TChar => check_char_specs sp | _ => Ok true end in
        Ok (begin, next)) /\ forall f', type_checks Sg (type_of_ctype t) (Some f') <-> admits (kind_of_ty u) f' /\ count_checks Sg (f_width f') /\ count_checks Sg (f_precision f')) as (u & Hcp & Htc).
      { destruct t as [u|u|]; [exists u; split; done..|done]. }
      rewrite Hcp. setoid_rewrite (Htc (index_field next f).1). clear Hcp Htc Hne t. rewrite (parse_format_specs_ok s p u f ft rest next) by done.
      assert (Hpa : admits (kind_of_ty u) (index_field next f).1 <-> admits (kind_of_ty u) f).
      { rewrite index_field_eq. cbn [fst]. apply recount_admits, index_count_none. }
      setoid_rewrite Hpa. clear Hpa. destruct (parse_fits u f) eqn:Hfits.
      2: { right. split; [done|]. right. intros [Ha _]. apply admits_parse in Ha as [Ha _]. congruence. }
      rewrite index_field_eq. cbn [fst recount f_width f_precision]. unfold field_numbered. rewrite all_numbered_app.
      destruct Hok as (_ & Hwok & Hpok & _).
      destruct (count_check_cases 1 (f_width f) next Hwok) as [[H1 H2]|(v & r & nx & H1 & H2 & H3)]; unfold count_numbered in H2; rewrite H1, H2; cbn [bind mbind option_bind]; [by right; auto|].
      destruct (count_check_cases 0 (f_precision f) nx Hpok) as [[H4 H5]|(v' & r' & nx' & H4 & H5 & H6)]; unfold count_numbered in H5; rewrite H4, H5; cbn [bind]; [by right; auto|].
      cbn [width_ref precision_ref specs_of].
      destruct (index_count_step next next (f_width f) nx (or_introl eq_refl) H2) as [_ Hs2].
      destruct (index_count_step nx _ (f_precision f) nx' Hs2 H5) as [-> _].
      destruct H3 as [[-> Hw]|[-> Hw]]; cbn [bind]; [|right; split; [done|]; right; intros (_ & ? & _); done].
      destruct H6 as [[-> Hp]|[-> Hp]]; cbn [bind]; [|right; split; [done|]; right; intros (_ & _ & ?); done].
      destruct (char_check u f (default 0 v) (default (-1) v') (default RNone r) (default RNone r') Hfits) as [[-> Hn]|(b & -> & Ha)]; cbn [bind].
      - right. split; [done|]. right. by intros [? _].
      - left. exists nx'. by split_and!.
    Qed.

    Lemma check_specs_cases id next out q : 0 <= id < num_args ps -> ps !! Z.to_nat id = Some q ->
      let t := type_of_ctype (p_type q) in let fi := (index_field next f).1 in
      (exists next', field_numbered next f = Some next' /\ type_checks Sg t (Some fi) /\
        close s (check_on_format_specs ps s id p next out) = Ok (S (p + length ft), next', out)) \/
      ((field_numbered next f = None \/ ~ type_checks Sg t (Some fi)) /\ close s (check_on_format_specs ps s id p next out) = Throw).
    Proof using All.
      intros Hid Hq t fi. unfold check_on_format_specs. rewrite decide_True by done. unfold get. rewrite Hq. cbn [bind].
      pose proof (drop_after _ _ _ _ Hs) as He. pose proof (drop_lt _ _ _ _ He) as Hlt.
      assert (Hcl : forall nx, close s (Ok ((p + length ft)%nat, nx, out)) = Ok (S (p + length ft), nx, out)).
      { intros nx. unfold close. cbn [bind]. rewrite decide_False by lia. rewrite (get_head _ _ _ _ He). cbn [bind]. by rewrite decide_False by (intros []; done). }
      destruct (decide (p_type q = CtSeq)) as [Hseq|Hne].
      - unfold t. rewrite Hseq. cbn [check_parse bind type_of_ctype type_checks].
        assert (Hfi : fi = no_options <-> f = no_options).
        { unfold fi. rewrite index_field_eq. cbn [fst]. apply recount_no_options; apply index_count_none. }
        destruct (no_options_text f ft Hok Hft) as [[Hf Hft0]|[Hf (c & l & Hft0 & Hc)]].
        + left. exists next. split; [by rewrite Hf|]. split; [by apply Hfi|]. pose proof (Hcl next) as H. rewrite Hft0 in H |- *. cbn [length] in *. by rewrite Nat.add_0_r in *.
        + right. split; [right; by rewrite Hfi|]. unfold close. cbn [bind]. pose proof Hs as Hs'. rewrite Hft0 in Hs'. cbn [app] in Hs'.
          pose proof (drop_lt _ _ _ _ Hs'). rewrite decide_False by lia. rewrite (get_head _ _ _ _ Hs'). cbn [bind]. by rewrite decide_True.
      - destruct (check_parse_cases (p_type q) next Hne) as [(nx & -> & H2 & H3)|[-> Hor]]; cbn [bind]; [|by right].
        left. exists nx. split_and!; [done|done|apply Hcl].
    Qed.
  End field.

  Lemma no_options_ok : field_ok no_options.
  Proof. split; [by left|]. by split_and!. Qed.
  Lemma no_options_written : field_text no_options [].
  Proof. apply (field_text_intro no_options [] []); constructor. Qed.
  Lemma no_options_admitted k : admits k no_options.
  Proof. by split_and!. Qed.
  (** At the brace that ends a field, there is nothing to check. *)
  Lemma check_plain_ok id p rest next out q : 0 <= id < num_args ps -> ps !! Z.to_nat id = Some q -> drop p s = 125 :: rest ->
    check_on_replacement_field ps s id p next out = Ok out.
  Proof.
    intros Hid Hq Hs. unfold check_on_replacement_field, check_on_format_specs. rewrite decide_True by done. unfold get. rewrite Hq. cbn [bind].
    destruct (decide (p_type q = CtSeq)) as [->|Hne]; [done|].
    destruct (check_parse_cases no_options [] rest p no_options_ok no_options_written Hs (p_type q) next Hne) as [(nx & -> & _)|[_ [?|H]]]; [done|done|].
    destruct H. cbn [index_field no_options index_count f_width f_precision fst type_checks]. destruct (p_type q); [split; [apply no_options_admitted|done]..|done].
  Qed.

  Definition shows_any (i : item) (t : list Z) : Prop := match i with Text c => t = [c] | Show _ _ => t = [] end.
  Notation icases := (item_cases (check_field ps s) (item_checks Sg) shows_any).
  Lemma check_show_cases w i p rest next out : which_ok w -> which_text w i -> drop p s = ([123] ++ i ++ [125]) ++ rest ->
    icases (Show w None) ([123] ++ i ++ [125]) p next out.
  Proof.
    intros Hw Hi Hs. unfold item_cases, check_field. rewrite (replacement_plain _ _ _ _ w i p rest next out Hw Hi Hs).
    rewrite <- !app_assoc in Hs. cbn [app] in Hs. pose proof (drop_next _ _ _ _ Hs) as Hs1. pose proof (drop_after _ _ _ _ Hs1) as Hs2.
    cbn [asked_by all_numbered index_item].
    destruct (check_id_cases w next Hw) as [[-> Hor]|(id & nx & q & -> & Hnum & Hid & Hq & Hiff)]; cbn [bind].
    - right. split; [|done]. destruct Hor as [->|Hno]; [by left|]. right. destruct (index_which next w) as [w' n']. cbn in *. intros (t & Ht & _). by apply (Hno t).
    - rewrite Hnum. rewrite (check_plain_ok id _ rest nx out q Hid Hq Hs2). cbn [bind mbind option_bind]. left. exists nx, []. split; [done|].
      destruct (index_which next w) as [w' n']. cbn in *. split; [eexists; split; [by apply Hiff|done]|]. split; [done|]. by rewrite app_nil_r.
  Qed.
  Lemma check_field_cases w i f ft p rest next out : which_ok w -> which_text w i -> field_ok f -> field_text f ft ->
    drop p s = ([123] ++ i ++ [58] ++ ft ++ [125]) ++ rest -> icases (Show w (Some f)) ([123] ++ i ++ [58] ++ ft ++ [125]) p next out.
  Proof.
    intros Hw Hi Hok Hft Hs. unfold item_cases, check_field. rewrite (replacement_specs _ _ _ _ w i ft p rest next out Hw Hi Hs).
    rewrite <- !app_assoc in Hs. cbn [app] in Hs.
    pose proof (drop_next _ _ _ _ Hs) as Hs1. pose proof (drop_after _ _ _ _ Hs1) as Hs2. pose proof (drop_next _ _ _ _ Hs2) as Hs3.
    cbn [asked_by all_numbered index_item].
    destruct (check_id_cases w next Hw) as [[-> Hor]|(id & nx & q & -> & Hnum & Hid & Hq & Hiff)]; cbn [bind].
    - right. split; [|done]. destruct Hor as [->|Hno]; [by left|]. right. destruct (index_which next w) as [w' n']. cbn in Hno. destruct (index_field n' f) as [f' n'']. cbn.
      intros (t & Ht & _). by apply (Hno t).
    - rewrite Hnum. cbn [mbind option_bind]. destruct (index_which_step next next w nx (or_introl eq_refl) Hnum) as [_ Hstep].
      destruct (index_which next w) as [w' n'] eqn:Hiw. cbn [fst snd] in *.
      destruct (check_specs_cases f ft rest _ Hok Hft Hs3 id nx out q Hid Hq) as [(nx' & H1 & H2 & H3)|[Hor Hthrow]].
      + left. exists nx', []. split; [exact H1|]. destruct (index_field_step nx n' f nx' Hstep H1) as [Hif _].
        destruct (index_field n' f) as [f' n'']. cbn [fst] in *. subst f'. split; [eexists; split; [by apply Hiff|done]|]. split; [done|].
        rewrite H3, app_nil_r. do 3 f_equal. cbn. rewrite !app_length. cbn. rewrite app_length. cbn. lia.
      + right. split; [|exact Hthrow]. fold (field_numbered nx f). destruct (field_numbered nx f) as [nx'|] eqn:Hfn; [|by left].
        right. destruct Hor as [?|Hor]; [done|]. destruct (index_field_step nx n' f nx' Hstep Hfn) as [Hif _].
        destruct (index_field n' f) as [f' n'']. cbn [fst] in *. subst f'. intros (t & Ht & Htc). by apply Hiff in Ht as ->.
  Qed.

  (** ** Any string *)

  Lemma loop_result {S R} (step : S -> res (S + R)) (P : S -> Prop) (Q : R -> Prop) n st r :
    (forall st o, P st -> step st = Ok o -> match o with inl st' => P st' | inr r => Q r end) -> P st -> loop n step st = Ok r -> Q r.
  Proof.
    intros Hstep. revert st. induction n as [|n IH]; intros st HP; [done|]. cbn [loop]. destruct (step st) as [o| | |] eqn:Ho; [|done..]. cbn [bind].
    pose proof (Hstep _ _ HP Ho) as H. destruct o as [st'|r']; [by apply IH|]. by intros [= <-].
  Qed.
  Definition ref_ok (r : ref) : Prop := forall i, r = RIndex i -> 0 <= i.
  Lemma parse_dynamic_spec_ref p next b v r next' : parse_dynamic_spec s p next = Ok (b, v, Some r, next') -> ref_ok r.
  Proof.
    unfold parse_dynamic_spec. destruct (get s p) as [c| | |]; [|done..]. cbn [bind]. destruct (is_digit c).
    { destruct (parse_nonnegative_int _ _ _) as [[b1 v1]| | |]; [|done..]. cbn [bind]. by destruct (decide _). }
    destruct (decide _); [|done]. destruct (decide _); [done|]. destruct (parse_arg_id s (S p)) as [[b1 id]| | |] eqn:Hid; [|done..]. cbn [bind].
    apply parse_arg_id_conv in Hid as (w & t & Hw & _ & -> & _).
    assert (Hr : forall r nx, dynamic_id (id_of w) next = Ok (r, nx) -> ref_ok r).
    { intros r0 nx. destruct w as [|i|nm]; cbn.
      - unfold next_arg_id. destruct (decide _); [done|]. cbn [bind]. intros [= <- _] i [= <-]. lia.
      - unfold check_arg_id. destruct (decide _); [done|]. cbn [bind]. intros [= <- _] j [= <-]. apply Hw.
      - by intros [= <- _] j. }
    destruct (dynamic_id (id_of w) next) as [[r0 nx]| | |] eqn:Hd; [|done..]. cbn [bind]. destruct (decide _); [done|].
    destruct (get s b1) as [c1| | |]; [|done..]. cbn [bind]. destruct (decide _); [|done]. intros [= _ _ <- _]. by eapply Hr.
  Qed.
  Definition refs_ok (sp : specs) : Prop := ref_ok (width_ref sp) /\ ref_ok (precision_ref sp).
  Lemma parse_format_specs_refs p t next b sp next' : parse_format_specs s p t next = Ok (b, sp, next') -> refs_ok sp.
  Proof.
    unfold parse_format_specs. destruct (decide _); [by intros [= _ <- _]|]. destruct (get s p) as [x| | |]; [|done..]. cbn [bind].
    destruct (if decide _ then _ else _) as [c| | |]; [|done..]. cbn [bind].
    apply (loop_result (specs_step s t) (fun '(_, _, _, sp, _) => refs_ok sp) (fun '(_, sp, _) => refs_ok sp)); [|done].
    clear. intros [[[[p c] st] sp] next] o Hsp.
    assert (Hcont : forall b st sp next o, refs_ok sp -> continue_at s b st sp next = Ok o ->
      match o with inl (_, _, _, sp', _) => refs_ok sp' | inr (_, sp', _) => refs_ok sp' end).
    { clear. intros b st sp next o Hsp. unfold continue_at. destruct (decide _); [by intros [= <-]|]. destruct (get s b); [|done..]. cbn [bind]. by intros [= <-]. }
    assert (Hst : forall cur st v (k : nat -> res (pst + nat * specs * Z)), (let* st := enter_state cur st v in k st) = Ok o -> exists st', k st' = Ok o).
    { intros cur st' v k. destruct (enter_state cur st' v); [|done..]. cbn [bind]. eauto. }
    unfold specs_step.
    destruct (decide _); [intros [st' H]%Hst; by eapply Hcont; [|exact H]|].
    destruct (decide _); [intros [st' H]%Hst; by eapply Hcont; [|exact H]|].
    destruct (decide _); [intros [st' H]%Hst; by eapply Hcont; [|exact H]|].
    destruct (decide _).
    { intros [st' H]%Hst. destruct (is_arithmetic t); [|done]. eapply Hcont; [|exact H]. by destruct (decide _). }
    destruct (_ || _).
    { intros [st' H]%Hst. destruct (parse_dynamic_spec s p next) as [[[[b v] r] nx]| | |] eqn:Hd; [|done..]. cbn [bind] in H. eapply Hcont; [|exact H].
      destruct Hsp as [H1 H2]. destruct v, r as [r|]; cbn [set_opt]; split; try done; by eapply parse_dynamic_spec_ref. }
    destruct (decide _).
    { intros [st' H]%Hst. destruct (parse_precision s p next) as [[[[b v] r] nx]| | |] eqn:Hd; [|done..]. cbn [bind] in H. eapply Hcont; [|exact H].
      unfold parse_precision in Hd. destruct (decide _); [done|]. destruct (get s (S p)); [|done..]. cbn [bind] in Hd. destruct (decide _); [done|].
      destruct Hsp as [H1 H2]. destruct v, r as [r|]; cbn [set_opt]; split; try done; by eapply parse_dynamic_spec_ref. }
    destruct (decide _); [intros [st' H]%Hst; by eapply Hcont; [|exact H]|].
    destruct (presentation c) as [[pr set]|]; [destruct (set t); [by intros [= <-]|done]|].
    destruct (decide _); [by intros [= <-]|]. destruct (get s p) as [x| | |]; [|done..]. cbn [bind]. destruct (decide _); [by intros [= <-]|].
    destruct (decide _); [done|]. destruct (decide _); [done|]. destruct (get s _) as [a| | |]; [|done..]. cbn [bind].
    intros [st' H]%Hst. by eapply Hcont; [|exact H].
  Qed.

  Lemma check_dynamic_safe r : ref_ok r -> safe (check_dynamic_spec ps r) (fun _ => True).
  Proof.
    intros Hr. destruct r as [|i|n]; cbn; [done| |done]. destruct (decide _) as [|Hlt]; [done|]. specialize (Hr i eq_refl). unfold num_args in Hlt.
    apply safe_bind, safe_get; [lia|]. intros p _. by destruct (is_integral_type _).
  Qed.
  Lemma check_specs_safe id p next out : (p <= length s)%nat ->
    safe (check_on_format_specs ps s id p next out) (fun '(b, _, _) => (p <= b <= length s)%nat).
  Proof.
    intros Hp. unfold check_on_format_specs. destruct (decide _) as [Hid|]; [|cbn; lia]. unfold num_args in Hid. apply safe_bind, safe_get; [lia|]. intros q _.
    apply safe_bind. apply (safe_mono _ (fun '(b, _) => (p <= b <= length s)%nat)); [|by intros [b nx]].
    assert (Hu : forall u, safe (let* (begin, sp, next) := parse_format_specs s p u next in
        let* _ := check_dynamic_spec ps (width_ref sp) in
        let* _ := check_dynamic_spec ps (precision_ref sp) in
        let* _ := match u with TChar => check_char_specs sp | _ => Ok true end in
        Ok (begin, next)) (fun '(b, _) => (p <= b <= length s)%nat)).
    { intros u. pose proof (parse_format_specs_safe s p u next Hp) as Hsafe. destruct (parse_format_specs s p u next) as [[[b sp] nx]| | |] eqn:HP; [|done..]. cbn [bind].
      apply parse_format_specs_refs in HP as [Hw Hpr]. apply safe_bind. eapply safe_mono; [by apply check_dynamic_safe|]. intros _ _.
      apply safe_bind. eapply safe_mono; [by apply check_dynamic_safe|]. intros _ _. apply safe_bind.
      apply (safe_mono _ (fun _ => True)); [|intros _ _; apply Hsafe]. destruct u; try done. by destruct (check_char_specs_cases sp) as [->|[? ->]]. }
    destruct (p_type q); cbn [check_parse]; [apply Hu..|cbn; lia].
  Qed.
  Lemma check_on_arg_id_safe id next : safe (check_on_arg_id ps id next) (fun _ => True).
  Proof.
    destruct id as [|i|n]; cbn.
    - unfold next_arg_id. destruct (decide _); [done|]. cbn [bind]. by destruct (decide _).
    - unfold check_arg_id. destruct (decide _); [done|]. cbn [bind]. by destruct (decide _).
    - by destruct (decide _).
  Qed.
  Lemma check_field_safe p next out : (p < length s)%nat -> safe (check_field ps s p next out) (fun '(b, _, _) => (p < b <= length s)%nat).
  Proof.
    intros Hp. unfold check_field, replacement_field. destruct (decide _) as [|Hne]; [done|].
    assert (Hpl : forall id b nx, (b <= length s)%nat -> safe (check_on_replacement_field ps s id b nx out) (fun _ => True)).
    { intros id b nx Hb. unfold check_on_replacement_field. apply safe_bind. eapply safe_mono; [by apply check_specs_safe|]. by intros [[? ?] ?]. }
    apply safe_bind, safe_get; [lia|]. intros c Hc. destruct (decide (c = 125)) as [H1|H1].
    { apply safe_bind. eapply safe_mono; [apply check_on_arg_id_safe|]. intros [id nx] _. apply safe_bind. eapply safe_mono; [apply Hpl; lia|]. intros o _. cbn. lia. }
    destruct (decide (c = 123)) as [H2|H2]; [cbn; lia|].
    apply safe_bind. eapply safe_mono; [apply parse_arg_id_safe; lia|]. intros [b id] Hb'.
    apply safe_bind. eapply safe_mono; [apply check_on_arg_id_safe|]. intros [id' nx] _.
    apply safe_bind. apply (safe_mono _ (fun c => c <> 0 -> (b < length s)%nat)).
    { destruct (decide (b <> length s)) as [|Hbe]; [|cbn; done]. apply safe_get; [lia|]. intros ? _ _. lia. }
    intros c' Hc'. destruct (decide (c' = 125)) as [->|H3].
    { apply safe_bind. eapply safe_mono; [apply Hpl; lia|]. intros o Ho. cbn. specialize (Hc' ltac:(done)). lia. }
    destruct (decide (c' = 58)) as [->|H4]; [|done]. specialize (Hc' ltac:(done)).
    apply safe_bind. eapply safe_mono; [apply check_specs_safe; lia|]. intros [[b2 n2] o2] Hb2.
    destruct (decide (b2 = length s)); [done|]. apply safe_bind, safe_get; [lia|]. intros x _. destruct (decide _); [done|]. cbn. lia.
  Qed.
  Lemma check_progress : progress s (check_field ps s).
  Proof.
    intros p next out b next' out' HP. destruct (decide (p < length s)%nat) as [Hp|Hp].
    - pose proof (check_field_safe p next out Hp) as H. rewrite HP in H. apply H.
    - exfalso. unfold check_field, replacement_field in HP. rewrite decide_False in HP by lia.
      unfold get at 1 in HP. rewrite lookup_ge_None_2 in HP by lia. done.
  Qed.
  Lemma check_parses_safe p next out r : parses s (check_field ps s) p next out r -> safe r (fun _ => True).
  Proof.
    intros H. induction H as [next out|p c next out r Hc H1 H2 H IH|p next out r Hc Hc' H IH|p next out Hc Hc'|p next out b next' out' r Hc HP H IH|p next out r Hc HP Hr]; try done.
    pose proof (check_field_safe p next out (lookup_lt_Some _ _ _ Hc)) as Hs. rewrite HP in Hs. by destruct r as [x| | |].
  Qed.
  Theorem check_safe : check_format_string ps s = Ok tt \/ check_format_string ps s = Throw.
  Proof.
    destruct (parses_exists s _ check_progress 0 0 [] ltac:(lia)) as [r Hr]. unfold check_format_string. rewrite (scan_string_ok _ _ check_progress [] r Hr).
    apply check_parses_safe in Hr. destruct r; cbn [bind]; auto; done.
  Qed.

  Lemma check_text c : item_checks Sg (Text c) /\ shows_any (Text c) [c].
  Proof. done. Qed.
  Lemma check_brace p rest next out : drop p s = 123 :: 123 :: rest -> check_field ps s p next out = Ok (S (S p), next, out ++ [123]).
  Proof. apply replacement_brace. Qed.
  Theorem check_cases ts : template_text ts s ->
    (checks Sg ts /\ check_format_string ps s = Ok tt) \/ (~ checks Sg ts /\ check_format_string ps s = Throw).
  Proof.
    intros Ht. unfold check_format_string.
    destruct (scan_cases s (check_field ps s) _ _ check_text check_brace check_show_cases check_field_cases ts check_progress Ht) as [(H1 & H2 & texts & _ & H4)|[H1 H2]].
    - left. split; [done|]. by rewrite (scan_string_ok _ _ check_progress [] _ H4).
    - right. split; [done|]. by rewrite (scan_string_ok _ _ check_progress [] _ H2).
  Qed.

  Lemma check_specs_conv (Hbytes : Forall (fun c => 0 <= c < 256) s) id p next out b next' out' :
    check_on_format_specs ps s id p next out = Ok (b, next', out') -> s !! b = Some 125 -> exists f ft, field_ok f /\ field_text f ft /\ spans s p ft b.
  Proof.
    assert (Hnone : forall b, exists f ft, field_ok f /\ field_text f ft /\ spans s b ft b).
    { intros b0. exists no_options, []. split_and!; [apply no_options_ok..|apply no_options_written|apply spans_nil]. }
    unfold check_on_format_specs. destruct (decide _); [|intros [= <- _ _]; eauto]. destruct (get ps _) as [q| | |]; [|done..]. cbn [bind].
    intros H Hb. destruct (check_parse ps s (p_type q) p next) as [[b1 nx]| | |] eqn:HP; [|done..]. cbn [bind] in H. injection H as -> _ _.
    assert (Hu : forall u, (let* (begin, sp, next) := parse_format_specs s p u next in
        let* _ := check_dynamic_spec ps (width_ref sp) in
        let* _ := check_dynamic_spec ps (precision_ref sp) in
        let* _ := match u with TChar => check_char_specs sp | _ => Ok true end in
        Ok (begin, next)) = Ok (b, nx) -> exists f ft, field_ok f /\ field_text f ft /\ spans s p ft b).
    { intros u. destruct (parse_format_specs s p u next) as [[[b1 sp] nx']| | |] eqn:HP'; [|done..]. cbn [bind].
      destruct (check_dynamic_spec ps (width_ref sp)); [|done..]. cbn [bind]. destruct (check_dynamic_spec ps (precision_ref sp)); [|done..]. cbn [bind].
      destruct (match u with TChar => _ | _ => _ end); [|done..]. cbn [bind]. intros [= -> _]. by eapply parse_format_specs_conv. }
    destruct (p_type q); cbn [check_parse] in HP; [by eapply Hu..|]. injection HP as <- _. apply Hnone.
  Qed.
  Theorem check_conv : Forall (fun c => 0 <= c < 256) s -> check_format_string ps s = Ok tt -> exists ts, template_text ts s.
  Proof.
    intros Hbytes H. destruct (parses_exists s _ check_progress 0 0 [] ltac:(lia)) as [r Hr]. unfold check_format_string in H.
    rewrite (scan_string_ok _ _ check_progress [] r Hr) in H. destruct r as [o| | |]; [|done..].
    destruct (parses_conv s _ _ _ (check_specs_conv Hbytes) _ _ _ _ Hr o eq_refl) as [ts Hts]. exists ts. by rewrite drop_0 in Hts.
  Qed.
End check.
