(** Whatever the parser accepts is a format string of the grammar. *)
From Verif Require Import Base.Cpp Model.Numeric Model.FmtInt Model.Utf8 Model.Escape Model.Dragonbox Model.FloatLayout Model.FloatDigits Model.Format.
From Verif Require Import Spec.FormatSpec Spec.Utf8Spec Spec.EscapeSpec Spec.FieldSpec Spec.TemplateSpec.
From Verif Require Import Proofs.FmtIntProofs Proofs.Utf8Decode Proofs.Utf8Proofs Proofs.EscapeProofs Proofs.FormatWrite Proofs.GroupingProofs.
From Verif Require Import Proofs.FormatValue Proofs.FormatScan Proofs.FormatSafe Proofs.FormatParse.
Set Default Proof Using "Type".
Local Open Scope Z_scope.
Ltac Zify.zify_post_hook ::= idtac.

(** The chars of [s] from [p] to [b] are [u]. *)
Definition spans (s : list Z) (p : nat) (u : list Z) (b : nat) : Prop := drop p s = u ++ drop b s /\ b = (p + length u)%nat.
Lemma spans_nil s p : spans s p [] p.
Proof. split; [done|cbn; lia]. Qed.
Lemma spans_one s p c : s !! p = Some c -> spans s p [c] (S p).
Proof. intros H. split; [by apply drop_S|cbn; lia]. Qed.
Lemma spans_app s p u q v b : spans s p u q -> spans s q v b -> spans s p (u ++ v) b.
Proof. intros [H1 ->] [H2 ->]. split; [by rewrite H1, H2, app_assoc|rewrite app_length; lia]. Qed.
Lemma spans_cons s p c u b : s !! p = Some c -> spans s (S p) u b -> spans s p (c :: u) b.
Proof. intros H. apply (spans_app s p [c]). by apply spans_one. Qed.
Lemma spans_drop s p u rest : drop p s = u ++ rest -> spans s p u (p + length u).
Proof. intros H. split; [|done]. by rewrite (drop_after s p u rest H). Qed.
Lemma spans_slice s p b : (p <= b <= length s)%nat -> spans s p (slice s p b) b.
Proof.
  intros H. split; [|rewrite slice_length by lia; lia]. unfold slice. replace b with (p + (b - p))%nat at 2 by lia. rewrite <- drop_drop. by rewrite take_drop.
Qed.

Lemma name_letter c : is_name_start c = true -> letter c.
Proof. unfold is_name_start, letter. rewrite !orb_true_iff, !andb_true_iff, !Z.leb_le, Z.eqb_eq. lia. Qed.
Lemma digit_range c : is_digit c = true -> 48 <= c <= 57.
Proof. unfold is_digit. rewrite andb_true_iff, !Z.leb_le. lia. Qed.
Lemma get_ok {A} (s : list A) p c : get s p = Ok c -> s !! p = Some c.
Proof. unfold get. by destruct (s !! p); [intros [= ->]|]. Qed.

Lemma parse_arg_id_conv s p b id : parse_arg_id s p = Ok (b, id) ->
  exists w t, which_ok w /\ which_text w t /\ id = id_of w /\ spans s p t b.
Proof.
  unfold parse_arg_id. destruct (get s p) as [c| | |] eqn:Hc; [|done..]. cbn [bind]. apply get_ok in Hc.
  destruct (decide (c <> 125 /\ c <> 58)) as [Hcc|Hcc].
  2: { intros [= <- <-]. exists NextArg, []. split_and!; [done|constructor|done|apply spans_nil]. }
  destruct (is_digit c) eqn:Hd.
  - destruct (decide (c <> 48)) as [H0|H0].
    + destruct (digits_split s p c Hc Hd) as (ds & rest & Hs & Hf & Hne & Hr).
      rewrite (parse_nonnegative_int_ok s p max_int ds rest Hs Hf Hne Hr). cbn [bind].
      destruct (decide _); [done|]. destruct (get s (p + length ds)); [|done..]. cbn [bind]. destruct (decide _); [done|]. intros [= <- <-].
      assert (Hh : head ds = Some 0 -> ds = [0]).
      { destruct ds as [|d ds]; [done|]. intros [= ->]. cbn in Hs. apply drop_head in Hs. rewrite Hs in Hc. injection Hc as <-. done. }
      assert (Hnum : numeral 10 false (number 10 ds) (digit_char false <$> ds)) by (exists ds; split_and!; done).
      pose proof (number_bound 10 ds ltac:(lia) Hf) as Hb.
      assert (Hsp : spans s p (digit_char false <$> ds) (p + length ds)) by (replace (length ds) with (length (digit_char false <$> ds)) by apply fmap_length; by eapply spans_drop).
      unfold parsed_number. destruct (decide _) as [[Hl Hle]|Hgt].
      * exists (ArgAt (number 10 ds)), (digit_char false <$> ds). split_and!; [split; [lia|done]|by constructor|done|done].
      * exists (ArgAt int_max), (digit_char false <$> ds). split_and!; [split; [unfold int_max|]; done| |done|done].
        apply (which_large (number 10 ds)); [done|]. destruct (decide (int_max < number 10 ds)) as [|Hn]; [done|]. exfalso. apply Hgt. split; [|lia].
        destruct (decide (length ds <= 10)%nat); [done|].
        pose proof (digits_of_ndigits 10 (number 10 ds) ds ltac:(lia) (conj Hf (conj eq_refl (conj Hne Hh)))) as (_ & _ & [H|H]).
        { unfold number in H. destruct (decide (head ds = Some 0)) as [He|He]; [rewrite (Hh He) in *; cbn in *; lia|].
          lia. }
        assert (10 ^ 10 <= 10 ^ (Z.of_nat (length ds) - 1)) by (apply Z.pow_le_mono_r; lia).
        unfold int_max in *. change (10 ^ 10) with 10000000000 in *. lia.
    + cbn [bind]. assert (c = 48) as -> by lia. destruct (decide _); [done|]. destruct (get s (S p)); [|done..]. cbn [bind]. destruct (decide _); [done|]. intros [= <- <-].
      exists (ArgAt 0), [48]. split_and!; [split; [|unfold int_max]; done| |done|by apply spans_one].
      constructor. exists [0]. by repeat constructor.
  - destruct (is_name_start c) eqn:Hn; [|done]. set (body := loop _ _ _).
    assert (Hbody : safe body (fun it => (p < it <= length s)%nat /\ forall i, (p < i < it)%nat -> exists x, s !! i = Some x /\ is_name_start x || is_digit x = true)).
    { pose proof (lookup_lt_Some _ _ _ Hc) as Hp.
      apply (safe_loop (fun it => (p <= it < length s)%nat /\ forall i, (p < i < S it)%nat -> exists x, s !! i = Some x /\ is_name_start x || is_digit x = true) (fun it => (length s - it)%nat)); [lia|split; lia|].
      intros it [Hit Hall]. destruct (decide (S it = length s)) as [He|He]; [cbn; split; [lia|done]|].
      apply safe_bind, safe_get; [lia|]. intros x Hx. destruct (is_name_start x || is_digit x) eqn:Hnx; cbn.
      - split; [|lia]. split; [lia|]. intros i Hi. destruct (decide (i = S it)) as [->|]; [eauto|]. apply Hall. lia.
      - split; [lia|]. done. }
    destruct body as [it| | |]; [|done..]. cbn [bind]. intros [= <- <-]. destruct Hbody as [Hit Hall].
    exists (Named (slice s p it)), (slice s p it). split_and!; [|constructor|done|by apply spans_slice; lia].
    cbn [which_ok]. rewrite (slice_cons s p it c) by (done || lia). split; [by apply name_letter|]. apply Forall_lookup. intros i x Hx.
    assert (Hi : (i < it - S p)%nat) by (apply lookup_lt_Some in Hx; rewrite slice_length in Hx by lia; done).
    rewrite slice_lookup in Hx by lia. destruct (Hall (S p + i)%nat ltac:(lia)) as (x' & Hx' & Hnx). rewrite Hx in Hx'. injection Hx' as <-.
    apply orb_true_iff in Hnx as [H|H]; [left; by apply name_letter|right; by apply digit_range].
Qed.

(** A width that starts with a char that is not 0, and what may come after the point of a precision. *)
Lemma parse_dynamic_spec_conv s p next b v r next' : parse_dynamic_spec s p next = Ok (b, v, r, next') ->
  exists c, s !! p = Some c /\
  ((is_digit c = true /\ exists ds, spans s p (digit_char false <$> ds) b /\ Forall (fun d => 0 <= d < 10) ds /\ ds <> [] /\ (length ds <= 10)%nat /\ number 10 ds <= int_max) \/
   (c = 123 /\ exists w t, which_ok w /\ which_text w t /\ spans s p ([123] ++ t ++ [125]) b) \/
   (is_digit c = false /\ c <> 123 /\ b = p)).
Proof.
  unfold parse_dynamic_spec. destruct (get s p) as [c| | |] eqn:Hc; [|done..]. cbn [bind]. apply get_ok in Hc. intros H. exists c. split; [done|]. revert H.
  destruct (is_digit c) eqn:Hd.
  - destruct (digits_split s p c Hc Hd) as (ds & rest & Hs & Hf & Hne & Hr).
    rewrite (parse_nonnegative_int_ok s p (-1) ds rest Hs Hf Hne Hr). cbn [bind].
    unfold parsed_number. destruct (decide ((length ds <= 10)%nat /\ _)) as [[Hl Hle]|Hgt]; [|done].
    destruct (decide _); [|done]. intros [= <- _ _ _]. left. split; [done|]. exists ds. split_and!; try done.
    replace (length ds) with (length (digit_char false <$> ds)) by apply fmap_length. by eapply spans_drop.
  - destruct (decide (c = 123)) as [->|Hn]; [|intros [= <- _ _ _]; right; right; done].
    destruct (decide _); [done|]. destruct (parse_arg_id s (S p)) as [[b1 id]| | |] eqn:Hid; [|done..]. cbn [bind].
    destruct (dynamic_id id next) as [[r1 nx]| | |]; [|done..]. cbn [bind]. destruct (decide _); [done|].
    destruct (get s b1) as [c1| | |] eqn:Hc1; [|done..]. cbn [bind]. destruct (decide (c1 = 125)) as [->|]; [|done]. intros [= <- _ _ _].
    right; left. split; [done|]. destruct (parse_arg_id_conv s (S p) b1 id Hid) as (w & t & Hw & Ht & _ & Hsp). exists w, t. split_and!; [done|done|].
    apply (spans_cons s p 123); [done|]. eapply spans_app; [exact Hsp|]. by apply spans_one, get_ok.
Qed.

(** What is left of a field from a state of the parser on: no part that comes before. *)
Definition tail (st : nat) (u : list Z) : Prop :=
  exists sg alt z wc pc l ty wt pt,
    count_text wc wt /\ precision_text pc pt /\ count_ok 1 wc /\ count_ok 0 pc /\ (pc = Bare -> l = true \/ ty <> None) /\
    u = sign_option_text sg ++ flag_text alt 35 ++ flag_text z 48 ++ wt ++ pt ++ flag_text l 76 ++ type_text ty /\
    ((2 <= st)%nat -> sg = None) /\ ((3 <= st)%nat -> alt = false) /\ ((4 <= st)%nat -> z = false) /\ ((5 <= st)%nat -> wc = NoCount) /\
    ((6 <= st)%nat -> pc = NoCount) /\ ((7 <= st)%nat -> l = false).

Lemma count_none_text t : count_text NoCount t -> t = [].
Proof. by inversion 1. Qed.
Lemma precision_none_text t : precision_text NoCount t -> t = [].
Proof. by inversion 1. Qed.

Lemma presentation_text c p set t : presentation c = Some (p, set) -> set t = true -> exists ty, [c] = type_text (Some ty).
Proof.
  unfold presentation. intros H Hs.
  repeat match type of H with context [decide (c = ?k)] => destruct (decide (c = k)) as [->|_] end; try done; injection H as <- <-.
  all: first [by exists (InBase Dec)|by exists (InBase Oct)|by exists (InBase (Hex false))|by exists (InBase (Hex true))|by exists (InBase (Bin false))|by exists (InBase (Bin true))
    |by exists AsChar|by exists AsString|by exists AsDebug|by exists AsPointer|by exists (AsFloat StFixed false)|by exists (AsFloat StFixed true)|by exists (AsFloat StScientific false)|by exists (AsFloat StScientific true)
    |by exists (AsFloat StGeneral false)|by exists (AsFloat StGeneral true)|by exists (AsFloat StHex false)|by exists (AsFloat StHex true)|done].
Qed.

Lemma enter_state_inv cur st valid st' : enter_state cur st valid = Ok st' -> st' = st /\ (cur < st)%nat /\ valid = true.
Proof. unfold enter_state. destruct (decide _) as [|H]; [done|]. intros [= <-]. split_and!; [done|lia|]. destruct valid; [done|]. destruct H. by right. Qed.

Ltac fin := first [done|lia|intros; exfalso; lia].
Section specs.
  Context (s : list Z) (t : ty).
  Notation step := (specs_step s t).
  Definition ends_at (b : nat) : Prop := s !! b = Some 125.

  (** To go on, and to end well, is to go on from the next char. *)
  Lemma continue_inv p st sp next n b sp' next' :
    (let* x := continue_at s p st sp next in match x with inl st => loop n step st | inr r => Ok r end) = Ok (b, sp', next') -> ends_at b ->
    exists c, s !! p = Some c /\ loop n step (p, c, st, sp, next) = Ok (b, sp', next').
  Proof.
    unfold continue_at. destruct (decide (p = length s)) as [->|Hp].
    - cbn [bind]. intros [= <- _ _] H. unfold ends_at in H. rewrite lookup_ge_None_2 in H by lia. done.
    - destruct (get s p) as [c| | |] eqn:Hc; [|done..]. cbn [bind]. intros H _. exists c. split; [by apply get_ok|done].
  Qed.

  Lemma tail_step n : forall p c st sp next b sp' next', s !! p = Some c -> (1 <= st)%nat ->
    loop n step (p, c, st, sp, next) = Ok (b, sp', next') -> ends_at b -> exists u, tail st u /\ spans s p u b.
  Proof.
    induction n as [|n IH]; intros p c st sp next b sp' next' Hc Hst H Hb; [done|]. rewrite loop_S in H. unfold specs_step at 1 in H.
    assert (Hgo : forall p st' sp next u0 q, (st < st')%nat -> spans s q u0 p ->
      (let* x := continue_at s p st' sp next in match x with inl st => loop n step st | inr r => Ok r end) = Ok (b, sp', next') ->
      exists u, tail st' u /\ spans s q (u0 ++ u) b).
    { intros p0 st' sp0 next0 u0 q Hlt Hsp H0. destruct (continue_inv _ _ _ _ _ _ _ _ H0 Hb) as (c0 & Hc0 & H1).
      destruct (IH p0 c0 st' sp0 next0 b sp' next' Hc0 ltac:(lia) H1 Hb) as (u & Hu & Hspu). exists u. split; [done|]. by eapply spans_app. }
    destruct (decide (c = 60 \/ c = 62 \/ c = 94)) as [H1|H1].
    { destruct (enter_state st 1 true) as [st'| | |] eqn:He; [|done..]. apply enter_state_inv in He as (_ & ? & _). lia. }
    destruct (decide (c = 43 \/ c = 45 \/ c = 32)) as [H2|H2].
    { destruct (enter_state st 2 _) as [st'| | |] eqn:He; [|done..]. apply enter_state_inv in He as (-> & Hlt & _). cbn [bind] in H.
      destruct (Hgo _ _ _ _ [c] p Hlt (spans_one _ _ _ Hc) H) as (u & Hu & Hsp). exists ([c] ++ u). split; [|done].
      destruct Hu as (sg & alt & z & wc & pc & l & ty & wt & pt & ? & ? & ? & ? & ? & -> & Hsg & ? & ? & ? & ? & ?). rewrite (Hsg ltac:(lia)).
      exists (Some (if decide (c = 43) then Plus else if decide (c = 45) then Minus else Space)), alt, z, wc, pc, l, ty, wt, pt.
      split_and!; try fin. destruct (decide (c = 43)) as [->|]; [done|]. destruct (decide (c = 45)) as [->|]; [done|]. assert (c = 32) as -> by lia. done. }
    destruct (decide (c = 35)) as [->|H3].
    { destruct (enter_state st 3 _) as [st'| | |] eqn:He; [|done..]. apply enter_state_inv in He as (-> & Hlt & _). cbn [bind] in H.
      destruct (Hgo _ _ _ _ [35] p Hlt (spans_one _ _ _ Hc) H) as (u & Hu & Hsp). exists ([35] ++ u). split; [|done].
      destruct Hu as (sg & alt & z & wc & pc & l & ty & wt & pt & ? & ? & ? & ? & ? & -> & Hsg & Halt & ? & ? & ? & ?).
      rewrite (Hsg ltac:(lia)), (Halt ltac:(lia)). exists None, true, z, wc, pc, l, ty, wt, pt. split_and!; fin. }
    destruct (decide (c = 48)) as [->|H4].
    { destruct (enter_state st 4 _) as [st'| | |] eqn:He; [|done..]. apply enter_state_inv in He as (-> & Hlt & _). cbn [bind] in H.
      destruct (is_arithmetic t); [|done].
      destruct (Hgo _ _ _ _ [48] p Hlt (spans_one _ _ _ Hc) H) as (u & Hu & Hsp). exists ([48] ++ u). split; [|done].
      destruct Hu as (sg & alt & z & wc & pc & l & ty & wt & pt & ? & ? & ? & ? & ? & -> & Hsg & Halt & Hz & ? & ? & ?).
      rewrite (Hsg ltac:(lia)), (Halt ltac:(lia)), (Hz ltac:(lia)). exists None, false, true, wc, pc, l, ty, wt, pt. split_and!; fin. }
    destruct (is_digit c || (c =? 123)) eqn:H5.
    { destruct (enter_state st 5 _) as [st'| | |] eqn:He; [|done..]. apply enter_state_inv in He as (-> & Hlt & _). cbn [bind] in H.
      destruct (parse_dynamic_spec s p next) as [[[[b1 v] r] nx]| | |] eqn:Hd; [|done..]. cbn [bind] in H.
      destruct (parse_dynamic_spec_conv _ _ _ _ _ _ _ Hd) as (c' & Hc' & Hcases). rewrite Hc in Hc'. injection Hc' as <-.
      assert (Hw : exists wc wt, count_text wc wt /\ count_ok 1 wc /\ spans s p wt b1).
      { destruct Hcases as [(Hdc & ds & Hsp & Hf & Hne & Hl & Hle)|[(-> & w & tw & Hw & Htw & Hsp)|(Hdc & Hc1 & _)]].
        - exists (Number (number 10 ds)), (digit_char false <$> ds). destruct ds as [|d ds]; [done|].
          assert (Hd0 : 0 < d).
          { destruct Hsp as [Hdr _]. cbn in Hdr. apply drop_head in Hdr. rewrite Hc in Hdr. apply Forall_cons in Hf as [Hd1 _].
            rewrite (digit_char_eq d Hd1) in Hdr. injection Hdr as ->. lia. }
          assert (Hn : numeral 10 false (number 10 (d :: ds)) (digit_char false <$> d :: ds)).
          { exists (d :: ds). split_and!; try done. intros [= ->]. lia. }
          split_and!; [by constructor| |done]. cbn [count_ok]. split; [|done].
          destruct (numeral_int _ _ Hn) as (ds' & Heq & Hf' & _ & Hz & Hnum & _).
          { split; [|done]. by apply number_bound. }
          destruct (decide (number 10 (d :: ds) = 0)) as [H0|H0]; [|pose proof (number_bound 10 (d :: ds) ltac:(lia) Hf); lia].
          exfalso. change (d :: ds) with ([d] ++ ds) in H0. rewrite number_app in H0. apply Forall_cons in Hf as [_ Hf]. pose proof (number_bound 10 ds ltac:(lia) Hf).
          assert (0 < 10 ^ Z.of_nat (length ds)) by lia. change (number 10 [d]) with (0 * 10 + d) in H0. nia.
        - exists (OfArg w), ([123] ++ tw ++ [125]). split_and!; [by constructor|done|done].
        - rewrite Hdc in H5. cbn in H5. by apply Z.eqb_eq in H5. }
      destruct Hw as (wc & wt & Hwt & Hwok & Hspw).
      destruct (Hgo _ _ _ _ wt p Hlt Hspw H) as (u & Hu & Hsp). exists (wt ++ u). split; [|done].
      destruct Hu as (sg & alt & z & wc' & pc & l & ty & wt' & pt & Hwt' & ? & ? & ? & ? & -> & Hsg & Halt & Hz & Hwc & ? & ?).
      rewrite (Hwc ltac:(lia)) in *. apply count_none_text in Hwt' as ->.
      rewrite (Hsg ltac:(lia)), (Halt ltac:(lia)), (Hz ltac:(lia)). exists None, false, false, wc, pc, l, ty, wt, pt. split_and!; fin. }
    destruct (decide (c = 46)) as [->|H6].
    { destruct (enter_state st 6 _) as [st'| | |] eqn:He; [|done..]. apply enter_state_inv in He as (-> & Hlt & _). cbn [bind] in H.
      unfold parse_precision in H. destruct (decide (S p = length s)) as [|Hlen]; [done|].
      destruct (get s (S p)) as [c1| | |] eqn:Hc1; [|done..]. cbn [bind] in H. apply get_ok in Hc1. destruct (decide (c1 = 125)) as [|H125]; [done|].
      destruct (parse_dynamic_spec s (S p) next) as [[[[b1 v] r] nx]| | |] eqn:Hd; [|done..]. cbn [bind] in H.
      destruct (parse_dynamic_spec_conv _ _ _ _ _ _ _ Hd) as (c' & Hc' & Hcases). rewrite Hc1 in Hc'. injection Hc' as <-.
      assert (Hw : exists pc pt, precision_text pc pt /\ count_ok 0 pc /\ spans s p pt b1 /\ (pc = Bare -> s !! b1 <> Some 125)).
      { destruct Hcases as [(Hdc & ds & Hsp & Hf & Hne & Hl & Hle)|[(-> & w & tw & Hw & Htw & Hsp)|(Hdc & Hc2 & ->)]].
        - exists (Number (number 10 ds)), (46 :: (digit_char false <$> ds)). split_and!; [by constructor| |by apply spans_cons|done].
          cbn [count_ok]. split; [by apply number_bound|done].
        - exists (OfArg w), (46 :: ([123] ++ tw ++ [125])). split_and!; [|done|by apply spans_cons|done]. apply precision_some; [done|]. by constructor.
        - exists Bare, [46]. split_and!; [constructor|done|by apply spans_one|]. intros _. congruence. }
      destruct Hw as (pc & pt & Hpt & Hpok & Hspw & Hbare).
      destruct (Hgo _ _ _ _ pt p Hlt Hspw H) as (u & Hu & Hsp). exists (pt ++ u). split; [|done].
      destruct Hu as (sg & alt & z & wc & pc' & l & ty & wt & pt' & Hwt & Hpt' & ? & ? & ? & -> & Hsg & Halt & Hz & Hwc & Hpc & ?).
      rewrite (Hwc ltac:(lia)) in *. apply count_none_text in Hwt as ->. rewrite (Hpc ltac:(lia)) in *. apply precision_none_text in Hpt' as ->.
      rewrite (Hsg ltac:(lia)), (Halt ltac:(lia)), (Hz ltac:(lia)) in *. exists None, false, false, NoCount, pc, l, ty, [], pt.
      split_and!; try fin; [constructor|]. intros Hb1. destruct l; [by left|]. right. destruct ty; [done|]. exfalso. apply (Hbare Hb1).
      cbn in Hsp. rewrite app_nil_r in Hsp. destruct Hspw as [_ ->], Hsp as [_ ->]. exact Hb. }
    destruct (decide (c = 76)) as [->|H7].
    { destruct (enter_state st 7 _) as [st'| | |] eqn:He; [|done..]. apply enter_state_inv in He as (-> & Hlt & _). cbn [bind] in H.
      destruct (Hgo _ _ _ _ [76] p Hlt (spans_one _ _ _ Hc) H) as (u & Hu & Hsp). exists ([76] ++ u). split; [|done].
      destruct Hu as (sg & alt & z & wc & pc & l & ty & wt & pt & Hwt & Hpt & ? & ? & ? & -> & Hsg & Halt & Hz & Hwc & Hpc & Hl).
      rewrite (Hwc ltac:(lia)) in *. apply count_none_text in Hwt as ->. rewrite (Hpc ltac:(lia)) in *. apply precision_none_text in Hpt as ->.
      rewrite (Hsg ltac:(lia)), (Halt ltac:(lia)), (Hz ltac:(lia)), (Hl ltac:(lia)). exists None, false, false, NoCount, NoCount, true, ty, [], [].
      split_and!; try fin; constructor. }
    destruct (presentation c) as [[pr set]|] eqn:Hpr.
    { destruct (set t) eqn:Hset; [|done]. cbn [bind] in H. injection H as <- _ _. destruct (presentation_text _ _ _ _ Hpr Hset) as [ty Hty].
      exists [c]. split; [|by apply spans_one]. exists None, false, false, NoCount, NoCount, false, (Some ty), [], []. split_and!; try fin; constructor. }
    assert (Hnone : forall b0, b0 = p -> exists u, tail st u /\ spans s p u b0).
    { intros b0 ->. exists []. split; [|apply spans_nil]. exists None, false, false, NoCount, NoCount, false, None, [], []. split_and!; try fin; constructor. }
    destruct (decide (c = 125)) as [->|H125]; [cbn [bind] in H; injection H as <- _ _; by apply Hnone|].
    unfold get at 1 in H. rewrite Hc in H. cbn [bind] in H. rewrite decide_False in H by done.
    destruct (decide _); [done|]. destruct (decide _); [done|]. destruct (get s (p + code_point_length c)); [|done..]. cbn [bind] in H.
    destruct (enter_state st 1 _) as [st'| | |] eqn:He; [|done..]. apply enter_state_inv in He as (_ & ? & _). lia.
  Qed.

  Lemma tail_field fl al st u : tail st u -> (fl = [] \/ al <> None /\ exists b bs, fl = b :: bs /\ 0 <= b < 256 /\ b <> 123 /\ b <> 125 /\ length (b :: bs) = code_point_bytes b) ->
    exists f, field_ok f /\ field_text f (fl ++ align_text al ++ u).
  Proof.
    intros (sg & alt & z & wc & pc & l & ty & wt & pt & Hwt & Hpt & Hw & Hp & Hbare & -> & _) Hfl.
    exists (Field fl al sg alt z wc pc l ty). split; [done|]. by apply (field_text_intro (Field fl al sg alt z wc pc l ty) wt pt).
  Qed.

  (** A char that is no alignment and no fill. *)
  Definition late (c : Z) : Prop :=
    (c = 43 \/ c = 45 \/ c = 32) \/ c = 35 \/ c = 48 \/ is_digit c || (c =? 123) = true \/ c = 46 \/ c = 76 \/ c = 125 \/ presentation c <> None.
  Global Instance late_dec c : Decision (late c).
  Proof. unfold late. assert (Decision (presentation c <> None)) by (destruct (presentation c); [by left|right; by intros H]). apply _. Defined.
  Lemma late_0 : ~ late 0.
  Proof. unfold late. intros H. repeat destruct H as [H|H]; try done. Qed.
  Lemma enter_state_01 k v : (2 <= k)%nat -> enter_state 0 k v = enter_state 1 k v.
  Proof. intros Hk. unfold enter_state. destruct v; [rewrite !decide_False by (intros [?|?]; [lia|done])|rewrite !decide_True by (by right)]; done. Qed.
  Lemma step_01 p c sp next : ~ (c = 60 \/ c = 62 \/ c = 94) -> late c -> step (p, c, 0%nat, sp, next) = step (p, c, 1%nat, sp, next).
  Proof.
    intros Hc Hl. unfold specs_step. rewrite !(decide_False (P := c = 60 \/ c = 62 \/ c = 94)) by done.
    rewrite !(enter_state_01 2), !(enter_state_01 3), !(enter_state_01 4), !(enter_state_01 5), !(enter_state_01 6), !(enter_state_01 7) by lia.
    repeat (destruct (decide _); [done|]). destruct (is_digit c || (c =? 123)) eqn:H5; [done|].
    repeat (destruct (decide _); [done|]). destruct (presentation c) as [[]|] eqn:Hp; [done|]. destruct (decide (c = 125)); [done|].
    exfalso. unfold late in Hl. rewrite H5, Hp in Hl. repeat destruct Hl as [Hl|Hl]; congruence || tauto || lia.
  Qed.

  Lemma parse_format_specs_conv p next b sp' next' : Forall (fun c => 0 <= c < 256) s -> parse_format_specs s p t next = Ok (b, sp', next') -> ends_at b ->
    exists f ft, field_ok f /\ field_text f ft /\ spans s p ft b.
  Proof.
    intros Hbytes H Hb. unfold parse_format_specs in H. destruct (decide (p = length s)) as [->|Hp].
    { injection H as <- _ _. unfold ends_at in Hb. rewrite lookup_ge_None_2 in Hb by lia. done. }
    destruct (get s p) as [x| | |] eqn:Hx; [|done..]. cbn [bind] in H. apply get_ok in Hx. set (c0 := if decide _ then _ else _) in H.
    destruct c0 as [c| | |] eqn:Hc0; [|done..]. cbn [bind] in H.
    assert (Hc : c = 0 \/ c = x).
    { unfold c0 in Hc0. destruct (decide _); [|injection Hc0 as ->; by right]. destruct (get s (S p)) as [y| | |]; [|done..]. cbn [bind] in Hc0.
      destruct (decide _); injection Hc0 as <-; [by right|by left]. }
    clear c0 Hc0. rewrite loop_S in H.
    assert (Htail : forall q st u0 sp nx n, (1 <= st)%nat -> spans s p u0 q ->
      (let* x := continue_at s q st sp nx in match x with inl st => loop n step st | inr r => Ok r end) = Ok (b, sp', next') ->
      exists u, tail st u /\ spans s p (u0 ++ u) b).
    { intros q st u0 sp nx n Hst Hsp H0. destruct (continue_inv _ _ _ _ _ _ _ _ H0 Hb) as (c1 & Hc1 & H1).
      destruct (tail_step _ _ _ _ _ _ _ _ _ Hc1 Hst H1 Hb) as (u & Hu & Hspu). exists u. split; [done|]. by eapply spans_app. }
    destruct (decide (c = 60 \/ c = 62 \/ c = 94)) as [H1|H1].
    { unfold specs_step at 1 in H. rewrite decide_True in H by done. rewrite enter_state_ok in H by lia. cbn [bind] in H.
      destruct Hc as [->| ->]; [lia|]. destruct (Htail _ 1%nat [x] _ _ _ ltac:(lia) (spans_one _ _ _ Hx) H) as (u & Hu & Hsp).
      set (al := if decide (x = 60) then PlLeft else if decide (x = 62) then PlRight else PlCenter).
      destruct (tail_field [] (Some al) 1 u Hu (or_introl eq_refl)) as (f & Hf & Hft). exists f. eexists. split_and!; [done|exact Hft|].
      replace ([] ++ align_text (Some al) ++ u) with ([x] ++ u); [done|]. unfold al. cbn [app]. destruct (decide (x = 60)) as [->|]; [done|].
      destruct (decide (x = 62)) as [->|]; [done|]. replace x with 94 by lia. done. }
    (* the first char is not an alignment: a part that comes later, or a fill *)
    destruct (decide (late c)) as [Hlate|Hlate].
    { destruct Hc as [->| ->]; [by destruct late_0|]. rewrite (step_01 p x default_specs next H1 Hlate) in H. rewrite <- loop_S in H.
      destruct (tail_step _ p x 1%nat _ _ _ _ _ Hx ltac:(lia) H Hb) as (u & Hu & Hsp).
      destruct (tail_field [] None 1 u Hu (or_introl eq_refl)) as (f & Hf & Hft). by exists f, u. }
    unfold specs_step at 1 in H. unfold late in Hlate. rewrite !decide_False in H by (intros ?; apply Hlate; tauto).
    replace (is_digit c || (c =? 123)) with false in H by (destruct (is_digit c || (c =? 123)); [destruct Hlate; tauto|done]).
    destruct (presentation c); [destruct Hlate; by do 7 right|].
    unfold get at 1 in H. rewrite Hx in H. cbn [bind] in H.
    destruct (decide (x = 125)) as [->|H125].
    { injection H as <- _ _. exists no_options, []. split_and!; [|by apply (field_text_intro no_options [] []); constructor|apply spans_nil]. split; [by left|]. split; [done|]. by split. }
    destruct (decide _) as [|Hfe]; [done|]. destruct (decide (x = 123)) as [|H123]; [done|].
    destruct (get s (p + code_point_length x)) as [a| | |] eqn:Ha; [|done..]. cbn [bind] in H. apply get_ok in Ha.
    destruct (enter_state 0 1 _) as [st'| | |] eqn:He; [|done..]. apply enter_state_inv in He as (-> & _ & Hal%bool_decide_eq_true). cbn [bind] in H.
    assert (Hx256 : 0 <= x < 256) by (rewrite Forall_lookup in Hbytes; by apply Hbytes in Hx).
    pose proof (code_point_length_ok x Hx256) as Hcp. assert (Hpos : (1 <= code_point_length x)%nat) by (rewrite Hcp; unfold code_point_bytes; repeat destruct (decide _); lia).
    set (fe := (p + code_point_length x)%nat) in *.
    assert (Hspf : spans s p (slice s p fe ++ [a]) (S fe)) by (eapply spans_app; [apply spans_slice; lia|by apply spans_one]).
    destruct (Htail _ 1%nat _ _ _ _ ltac:(lia) Hspf H) as (u & Hu & Hsp). rewrite <- app_assoc in Hsp.
    assert (Hpl : exists al, align_text (Some al) = [a]).
    { unfold parse_align in Hal. destruct (decide (a = 60)) as [->|]; [by exists PlLeft|]. destruct (decide (a = 62)) as [->|]; [by exists PlRight|].
      destruct (decide (a = 94)) as [->|]; [by exists PlCenter|done]. }
    destruct Hpl as [al Hal']. destruct (tail_field (slice s p fe) (Some al) 1 u Hu) as (f & Hf & Hft).
    { right. split; [done|]. exists x, (slice s (S p) fe). rewrite <- (slice_cons s p fe x) by (done || lia). split_and!; try done || lia.
      rewrite slice_length by lia. lia. }
    exists f. eexists. split_and!; [done|exact Hft|]. by rewrite Hal'.
  Qed.
End specs.

(** ** Fields and strings *)

Section handler.
  Context (s : list Z) (on_id : arg_id -> Z -> res (Z * Z)) (on_plain : Z -> nat -> Z -> list Z -> res (list Z)).
  Context (on_specs : Z -> nat -> Z -> list Z -> res (nat * Z * list Z)).
  Context (Hspecs : forall id p next out b next' out', on_specs id p next out = Ok (b, next', out') -> s !! b = Some 125 ->
    exists f ft, field_ok f /\ field_text f ft /\ spans s p ft b).
  Notation field_at := (replacement_field s on_id on_plain on_specs).

  Lemma replacement_conv p next out b next' out' : s !! p = Some 123 -> field_at p next out = Ok (b, next', out') ->
    exists u, spans s p u b /\ forall ts t, template_text ts t -> exists i, template_text (i :: ts) (u ++ t).
  Proof using Hspecs.
    intros Hp H. unfold replacement_field in H. destruct (decide _); [done|]. destruct (get s (S p)) as [c| | |] eqn:Hc; [|done..]. cbn [bind] in H. apply get_ok in Hc.
    destruct (decide (c = 125)) as [->|H125].
    { destruct (on_id Auto next) as [[id nx]| | |]; [|done..]. cbn [bind] in H. destruct (on_plain _ _ _ _); [|done..]. cbn [bind] in H. injection H as <- _ _.
      exists [123; 125]. split; [by apply spans_cons, spans_one|]. intros ts t Ht. exists (Show NextArg None). by apply (template_show NextArg [] ts t); [|constructor|]. }
    destruct (decide (c = 123)) as [->|H123].
    { injection H as <- _ _. exists [123; 123]. split; [by apply spans_cons, spans_one|]. intros ts t Ht. exists (Text 123). apply template_brace; [by left|done]. }
    destruct (parse_arg_id s (S p)) as [[b1 id]| | |] eqn:Hid; [|done..]. cbn [bind] in H. destruct (parse_arg_id_conv _ _ _ _ Hid) as (w & i & Hw & Hi & -> & Hspi).
    destruct (on_id (id_of w) next) as [[id' nx]| | |]; [|done..]. cbn [bind] in H.
    destruct (decide (b1 <> length s)) as [Hb1|]; [|done]. destruct (get s b1) as [c1| | |] eqn:Hc1; [|done..]. cbn [bind] in H. apply get_ok in Hc1.
    destruct (decide (c1 = 125)) as [->|H3].
    { destruct (on_plain _ _ _ _); [|done..]. cbn [bind] in H. injection H as <- _ _. exists (123 :: (i ++ [125])). split.
      - apply spans_cons; [done|]. eapply spans_app; [exact Hspi|by apply spans_one].
      - intros ts t Ht. exists (Show w None). replace ((123 :: (i ++ [125])) ++ t) with ([123] ++ i ++ [125] ++ t) by (cbn; by rewrite <- app_assoc). by apply template_show. }
    destruct (decide (c1 = 58)) as [->|H4]; [|done].
    destruct (on_specs _ _ _ _) as [[[b2 n2] o2]| | |] eqn:Hof; [|done..]. cbn [bind] in H. destruct (decide _); [done|].
    destruct (get s b2) as [c2| | |] eqn:Hc2; [|done..]. cbn [bind] in H. apply get_ok in Hc2. destruct (decide (c2 <> 125)) as [|H5]; [done|].
    assert (c2 = 125) as -> by lia. injection H as <- _ _.
    destruct (Hspecs _ _ _ _ _ _ _ Hof Hc2) as (f & ft & Hf & Hft & Hspf).
    exists (123 :: (i ++ (58 :: (ft ++ [125])))). split.
    - apply spans_cons; [done|]. eapply spans_app; [exact Hspi|]. apply spans_cons; [done|]. eapply spans_app; [exact Hspf|by apply spans_one].
    - intros ts t Ht. exists (Show w (Some f)). replace ((123 :: (i ++ (58 :: (ft ++ [125])))) ++ t) with ([123] ++ i ++ [58] ++ ft ++ [125] ++ t) by (cbn; rewrite <- !app_assoc; cbn; by rewrite <- !app_assoc).
      by apply template_field.
  Qed.

  Lemma parses_conv p next out r : parses s field_at p next out r -> forall o, r = Ok o -> exists ts, template_text ts (drop p s).
  Proof using Hspecs.
    intros H. induction H as [next out|p c next out r Hc H1 H2 H IH|p next out r Hc Hc' H IH|p next out Hc Hc'|p next out b next' out' r Hc HP H IH|p next out r Hc HP Hr]; intros o Ho.
    - exists []. rewrite drop_all. constructor.
    - destruct (IH o Ho) as [ts Hts]. exists (Text c :: ts). rewrite (drop_S _ _ _ Hc). by constructor.
    - destruct (IH o Ho) as [ts Hts]. exists (Text 125 :: ts). rewrite (drop_S _ _ _ Hc), (drop_S _ _ _ Hc'). apply template_brace; [by right|done].
    - done.
    - destruct (IH o Ho) as [ts Hts]. destruct (replacement_conv _ _ _ _ _ _ Hc HP) as (u & [Hsp _] & Hu). destruct (Hu _ _ Hts) as [i Hi]. exists (i :: ts). by rewrite Hsp.
    - destruct r; done.
  Qed.
End handler.

Section items.
  Context (E : env) (A : args custom_value) (s : list Z) (Hbytes : Forall (fun c => 0 <= c < 256) s).

  Lemma on_format_specs_conv id p next out b next' out' : on_format_specs seq_custom E A s id p next out = Ok (b, next', out') -> s !! b = Some 125 ->
    exists f ft, field_ok f /\ field_text f ft /\ spans s p ft b.
  Proof using Hbytes.
    unfold on_format_specs. destruct (get_arg A id) as [[v|c]| | |]; [..|done|done|done]; cbn [bind]; intros H Hb.
    - destruct (parse_format_specs s p (type_of v) next) as [[[b1 sp] nx]| | |] eqn:HP; [|done..]. cbn [bind] in H.
      destruct (handle_dynamic_spec A (width sp) (width_ref sp)); [|done..]. cbn [bind] in H.
      destruct (handle_dynamic_spec A (precision sp) (precision_ref sp)); [|done..]. cbn [bind] in H.
      destruct (decide _); [done|]. destruct (get s b1) as [x| | |]; [|done..]. cbn [bind] in H. destruct (decide _); [done|].
      destruct (write_value _ _ _ _); [|done..]. cbn [bind] in H. injection H as -> _ _. by eapply parse_format_specs_conv.
    - destruct c as [j|t vs]; cbn [seq_custom] in H.
      + unfold join_custom in H. destruct (parse_format_specs s p (j_type j) next) as [[[b1 sp] nx]| | |] eqn:HP; [|done..]. cbn [bind] in H.
        destruct (match j_type j with TChar => _ | _ => _ end); [|done..]. cbn [bind] in H.
        destruct (for_up _ _ _ _); [|done..]. cbn [bind] in H. injection H as -> _ _. by eapply parse_format_specs_conv.
      + destruct (vformat_to _ _ _ _ _); [|done..]. cbn [bind] in H. injection H as -> _ _.
        exists no_options, []. split_and!; [|by apply (field_text_intro no_options [] []); constructor|apply spans_nil]. split; [by left|]. split; [done|]. by split.
  Qed.
End items.
