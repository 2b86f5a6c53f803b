(** Floating-point numbers are written or refused, for all specs. *)
From Coq Require Import QArith Qpower Qabs Lqa.
From Verif Require Import Base.Cpp Model.Numeric Model.FmtInt Model.Format Model.Dragonbox Model.FloatLayout Model.Bigint Model.FloatDigits
  Spec.FormatSpec Spec.FieldSpec Spec.FloatSpec Spec.FloatText Spec.FloatRound Spec.FloatField
  Proofs.FmtIntProofs Proofs.FormatWrite Proofs.GroupingProofs Proofs.FormatValue Proofs.FloatSpecProofs Proofs.DragonboxArith Proofs.DragonboxProofs
  Proofs.SegmentProofs Proofs.FirstSegment Proofs.DragonProofs Proofs.FloatLayoutProofs Proofs.FloatTextProofs Proofs.FloatDigitsProofs
  Proofs.FloatPrecisionProofs Proofs.FloatFieldProofs Proofs.HexFloatProofs.
From Verif Require Spec.TemplateSpec.
Set Default Proof Using "Type".
Ltac Zify.zify_post_hook ::= idtac.
Local Open Scope Z_scope.
Local Notation decimal := FloatSpec.decimal.

(** ** The layout, with the locale or without *)
Lemma grouping_env E locale : env_ok E -> env_ok (float_grouping E locale).
Proof. unfold float_grouping, env_ok. by destruct locale. Qed.
Lemma separators_count E n : env_ok E -> 0 <= n <= max_int -> exists k, count_separators E n = Ok k /\ 0 <= k.
Proof. intros HE Hn. rewrite <- (Z2Nat.id n) by lia. rewrite count_separators_ok by (done || lia). eexists. split; [done|]. lia. Qed.
Lemma with_zeros_ok G cs size e : env_ok G -> 0 <= e <= max_int - size -> Z.of_nat (length cs) <= size ->
  exists text, forall out, write_with_zeros G out (SChars cs) size e = Ok (out ++ text).
Proof.
  intros HG He Hl. unfold write_with_zeros, write_digits. cbn [bind]. set (ds := take (Z.to_nat size) cs ++ replicate (Z.to_nat e) 48).
  destruct (has_separator G); [|by exists ds]. eexists. intros out. apply group_apply_ok; [done|].
  unfold ds. rewrite app_length, take_length, replicate_length. lia.
Qed.
Lemma with_point_ok G cs size n point : env_ok G -> 0 <= n <= max_int ->
  exists text, forall out, write_point_grouped G out (SChars cs) size n point = Ok (out ++ text).
Proof.
  intros HG Hn. unfold write_point_grouped.
  assert (Hp : exists t, write_point (SChars cs) size n point = Ok t) by (unfold write_point; destruct (decide (point = 0)); eauto).
  destruct Hp as [t ->]. cbn [bind]. destruct (has_separator G); [|by exists t].
  rewrite to_unsigned_ok by lia. cbn [bind]. eexists. intros out. rewrite group_apply_ok; [|done|rewrite take_length; lia].
  cbn [bind]. by rewrite <- app_assoc.
Qed.

Lemma layout_total E pt cs e sp fs : env_ok E -> 0 <= width sp < 2 ^ 31 -> -9999 < e + Z.of_nat (length cs) < 9999 ->
  exists text, forall out, do_write_float E pt out (SChars cs) e sp fs = Ok (out ++ text).
Proof.
  intros HE Hw Hx. unfold do_write_float. cbn [get_significand_size bind]. set (len := Z.of_nat (length cs)) in *.
  assert (Hlen : 0 <= len) by (unfold len; lia). rewrite to_unsigned_ok by lia. cbn [bind].
  set (sg := fs_sign fs). set (point := if fs_locale fs then pt else 46). cbv zeta.
  assert (Hsg : 0 <= sign_size sg) by (by destruct sg).
  destruct (use_exp_format fs (e + len - 1)).
  - set (more := if fs_showpoint fs then _ else _).
    assert (Hmore : exists nz p sz, more = Ok (nz, p, sz) /\ 0 <= sz).
    { unfold more. destruct (fs_showpoint fs).
      - rewrite to_unsigned_ok by (destruct (decide (fs_precision fs - len < 0)); lia). cbn [bind].
        do 3 eexists. split; [reflexivity|]. destruct (decide (fs_precision fs - len < 0)); lia.
      - destruct (decide (len = 1)); do 3 eexists; (split; [reflexivity|]); lia. }
    destruct Hmore as (nz & p & sz & -> & Hsz). cbn [bind].
    set (ed := if decide (100 <= _) then _ else _). assert (Hed : 0 <= ed) by (unfold ed; repeat case_decide; lia).
    rewrite to_unsigned_ok by (case_decide; lia). cbn [bind].
    assert (Hp : exists t, write_point (SChars cs) len 1 p = Ok t) by (unfold write_point; destruct (decide (p = 0)); eauto).
    destruct Hp as [t ->]. destruct (write_exponent_ok (fs_upper fs) (e + len - 1) ltac:(lia)) as (ex & -> & _). cbn [bind].
    destruct (decide (width sp > 0)).
    + eexists. intros out. eapply write_padded_ok; [done|case_decide; lia|]. intros it. rewrite <- !app_assoc. reflexivity.
    + eexists. intros out. rewrite <- !app_assoc. reflexivity.
  - destruct (decide (0 <= e)) as [He|He]; [|destruct (decide (0 < e + len)) as [Hp|Hp]].
    + rewrite to_unsigned_ok by lia. cbn [bind].
      set (more := if fs_showpoint fs then _ else _).
      assert (Hmore : exists nz sz, more = Ok (nz, sz) /\ 0 <= sz).
      { unfold more. destruct (fs_showpoint fs); [|do 2 eexists; split; [reflexivity|]; lia].
        set (z := if decide (_ /\ _) then _ else _). destruct (decide (z > 0)).
        - rewrite to_unsigned_ok by lia. cbn [bind]. do 2 eexists. split; [reflexivity|]. lia.
        - do 2 eexists. split; [reflexivity|]. lia. }
      destruct Hmore as (nz & sz & -> & Hsz). cbn [bind]. set (G := float_grouping E (fs_locale fs)).
      assert (HG : env_ok G) by (by apply grouping_env).
      destruct (separators_count G (e + len) HG ltac:(unfold max_int; lia)) as (k & -> & Hk). cbn [bind].
      rewrite to_unsigned_ok by lia. cbn [bind].
      destruct (with_zeros_ok G cs len e HG ltac:(unfold max_int; lia) ltac:(done)) as [t Ht].
      destruct (negb (fs_showpoint fs)); eexists; intros out; (eapply write_padded_ok; [done|lia|]); intros it; rewrite Ht; cbn [bind];
        rewrite <- !app_assoc; reflexivity.
    + rewrite to_unsigned_ok by (case_decide; lia). cbn [bind]. set (G := float_grouping E (fs_locale fs)).
      assert (HG : env_ok G) by (by apply grouping_env).
      destruct (separators_count G (e + len) HG ltac:(unfold max_int; lia)) as (k & -> & Hk). cbn [bind].
      rewrite to_unsigned_ok by lia. cbn [bind].
      destruct (with_point_ok G cs len (e + len) point HG ltac:(unfold max_int; lia)) as [t Ht].
      eexists. intros out. eapply write_padded_ok; [done|case_decide; lia|]. intros it. rewrite Ht. cbn [bind].
      rewrite <- !app_assoc. reflexivity.
    + set (nz := if decide (_ /\ _) then _ else _).
      assert (Hnz : 0 <= nz) by (unfold nz; case_decide; lia). rewrite to_unsigned_ok by lia. cbn [bind write_digits].
      set (pointy := _ || fs_showpoint fs).
      destruct pointy; cbn [negb]; eexists; intros out; (eapply write_padded_ok; [done|lia|]); intros it; rewrite <- ?app_assoc; reflexivity.
Qed.

(** ** The digits *)
Lemma digit_zeros n : digit_text (replicate n 0) = replicate n 48.
Proof. unfold digit_text. by rewrite fmap_replicate. Qed.
Lemma digit_one d : 0 <= d < 10 -> digit_text [d] = [48 + d].
Proof. intros H. unfold digit_text. cbn [fmap list_fmap]. unfold digit_char. by rewrite decide_True by lia. Qed.
Section total.
  Context (E : env) (pt : Z) (I : float_info) (F : format) (HIF : kind_of I F) (HE : env_ok E) (m : Z).
  Hypothesis Hm : 0 <= m < (emax F - emin F + 2) * 2 ^ (prec F - 1).
  Let v := value (of_bits F m).

  (** Too many digits with f or F. *)
  Definition too_many (p : Z) : Prop := exists x, 0 <= x /\ (p10 x <= v)%Q /\ (v < p10 (x + 1))%Q /\ max_int < p + x + 1.

  Definition few (fmt : float_format) (r : res (list Z * Z)) : Prop := exists ds j, r = Ok (digit_text ds, j) /\
    all_digits ds /\ (ds <> [] \/ j < 0 /\ fmt = Fixed) /\ -400 <= Z.of_nat (length ds) + j <= 400.
  Lemma rounded_few P fmt sg u point : fmt <> Fixed -> 0 < P -> few fmt (format_float (as_double I m) m P (fspecs I 0 fmt sg u point)).
  Proof using HIF Hm.
    intros Hfmt HP. destruct (as_double_zero I F m HIF Hm) as [[Hz Hzd]|[Hfin Hnz]].
    - exists [0], 0. split; [|by split_and!; [repeat constructor|left|..]]. unfold format_float. rewrite Hzd, decide_True by done. cbn [fspecs fs_format].
      rewrite decide_True by (right; by apply bool_decide_eq_false_2). done.
    - destruct (digits_rounded I F HIF m Hm P fmt u point Hfin Hfmt HP) as (ds & M & j & Hl & Hds & Hr & _ & Hx & _ & Hff). cbv zeta in *.
      rewrite Hff. destruct point.
      + exists ds, j. destruct Hds as (Hall & _ & Hne & _). split_and!; [done|done|by left|lia..].
      + pose proof (Z.pow_pos_nonneg 10 (Z.min P 767 - 1) ltac:(lia) ltac:(lia)).
        destruct (remove_zeros_ok ds M j Hds ltac:(lia)) as (ds' & m' & j' & -> & (Hall & _ & Hne & _) & _ & Hlen & _).
        exists ds', j'. split_and!; [done|done|by left|lia..].
  Qed.
  Lemma shortest_few sg point : few General (format_float (as_double I m) m (-1) (fspecs I 0 General sg false point)).
  Proof using HIF Hm.
    destruct (as_double_zero I F m HIF Hm) as [[Hz Hzd]|[Hfin Hnz]].
    - exists [0], 0. split; [|by split_and!; [repeat constructor|left|..]]. unfold format_float. rewrite Hzd, !decide_True by (done || (by left)). done.
    - destruct (shortest_digits I F HIF m Hm (-1) point Hfin ltac:(lia)) as (s & j & ds & _ & Hds & _ & Hl & _ & Hff).
      exists ds, j. destruct Hds as (Hall & _ & Hne & _). split_and!; [done|done|by left|lia..].
  Qed.
  Lemma fixed_few p sg u point : 0 <= p ->
    few Fixed (format_float (as_double I m) m p (fspecs I 0 Fixed sg u point)) /\ ~ too_many p \/
    format_float (as_double I m) m p (fspecs I 0 Fixed sg u point) = Throw /\ too_many p.
  Proof using HIF Hm.
    intros Hp. destruct (as_double_zero I F m HIF Hm) as [[Hz Hzd]|[Hfin Hnz]].
    - left. split.
      + unfold format_float. rewrite Hzd, decide_True by done. cbn [fspecs fs_format]. rewrite bool_decide_eq_true_2 by done.
        destruct (decide (p <= 0 \/ true = false)) as [H|H].
        * exists [0], 0. by split_and!; [|repeat constructor|left|..].
        * exists (replicate (Z.to_nat p) 0), (- p). split; [by rewrite digit_zeros|]. split; [apply replicate_all_digits|].
          split; [right; split; [|done]|rewrite replicate_length]; lia.
      + intros (x & Hx & Hlo & _). apply (Qlt_irrefl 0). eapply Qlt_le_trans; [apply (p10_pos x)|]. eapply Qle_trans; [exact Hlo|].
        unfold v. rewrite (zero_value I F HIF m Hm Hz). apply Qle_refl.
    - destruct (digits_cases I F m (fspecs I 0 Fixed sg u point) p HIF Hfin eq_refl Hp) as (x & Hx & Hlo & Hhi & _ & Hthrow & Hrest).
      fold v in Hlo, Hhi. change (bool_decide (fs_format (fspecs I 0 Fixed sg u point) = Fixed)) with true in *. cbn iota in *.
      destruct (decide (0 <= x /\ max_int < p + x + 1)) as [[Hx0 Hbig]|Hno].
      + right. split; [|by exists x]. rewrite format_float_core by done. by rewrite Hthrow.
      + left. split.
        * rewrite format_float_core by done. destruct Hrest as (H1 & H2 & H3); [intros; lia|].
          change (bool_decide (fs_format (fspecs I 0 Fixed sg u point) = Fixed)) with true. cbn [negb andb].
          destruct (Z.lt_trichotomy (p + x + 1) 0) as [Hq|[Hq|Hq]].
          -- rewrite H3 by lia. exists [], (x + 1). split; [done|]. split; [constructor|]. split; [right; split; [lia|done]|]. cbn. lia.
          -- destruct (H2 Hq) as (M & _ & HM & ->). exists [M], (x + 1). split; [rewrite digit_one by lia; done|]. split; [repeat constructor; lia|]. split; [by left|]. cbn. lia.
          -- destruct (H1 Hq) as (M & _ & HMr & ->). cbv zeta in *. set (K := Z.min (p + x + 1) 767) in *.
             destruct (rounded_ok true K M (x + 1 - K) ltac:(lia) HMr) as (ds & m' & j & -> & Hds & _ & Hmj & _).
             destruct (Hmj eq_refl) as [-> ->]. exists ds. eexists. split; [reflexivity|]. split; [apply Hds|]. split; [left; apply Hds|].
             pose proof (digits_of_ndigits 10 M ds ltac:(lia) Hds) as (Hl1 & Hl2 & Hl3).
             assert (Hlo' : K <= Z.of_nat (length ds)).
             { assert (~ (Z.of_nat (length ds) <= K - 1)); [|lia]. intros Hc.
               assert (10 ^ Z.of_nat (length ds) <= 10 ^ (K - 1)) by (apply Z.pow_le_mono_r; lia). lia. }
             assert (Hhi' : Z.of_nat (length ds) <= K + 1).
             { destruct Hl3 as [->|Hl3]; [lia|]. assert (~ (K < Z.of_nat (length ds) - 1)); [|lia]. intros Hc.
               assert (10 ^ K < 10 ^ (Z.of_nat (length ds) - 1)) by (apply Z.pow_lt_mono_r; lia). lia. }
             lia.
        * intros (x' & Hx' & Hlo' & Hhi' & Hbig). assert (x' = x) as ->; [|lia].
          assert (x' < x + 1).
          { assert (~ (x + 1 <= x')); [|lia]. intros Hc. apply (Qlt_irrefl v). eapply Qlt_le_trans; [exact Hhi|].
            eapply Qle_trans; [apply p10_le; exact Hc|exact Hlo']. }
          assert (x < x' + 1); [|lia].
          assert (~ (x' + 1 <= x)); [|lia]. intros Hc. apply (Qlt_irrefl v). eapply Qlt_le_trans; [exact Hhi'|].
          eapply Qle_trans; [apply p10_le; exact Hc|exact Hlo].
  Qed.

  Definition refuses (pr : float_pres) (p : Z) : Prop :=
    match pr with FExp _ => p = max_int | FFixed _ => too_many (given p) | _ => False end.
  Definition written (r : list Z -> res (list Z)) : Prop := exists text, forall out, r out = Ok (out ++ text).

  (** The digits do not depend on the locale. *)
  Lemma digits_locale br single P fmt sg u loc b b' point :
    format_float br single P (FSpecs 0 fmt sg u loc b point) = format_float br single P (FSpecs 0 fmt sg u b' b point).
  Proof using Type. done. Qed.

  Lemma body_total pr sp sg : 0 <= width sp < 2 ^ 31 -> -1 <= precision sp <= max_int ->
    written (fun out => float_body E pt I out m pr sp (set_fs_sign (parse_float_type_spec pr sp) sg)) /\ ~ refuses pr (precision sp) \/
    (forall out, float_body E pt I out m pr sp (set_fs_sign (parse_float_type_spec pr sp) sg) = Throw) /\ refuses pr (precision sp).
  Proof using HE HIF Hm.
    intros Hw Hp.
    assert (Hlay : forall P fs, few (fs_format fs) (format_float (as_double I m) m P fs) -> forall fs',
      written (fun out => let* (buffer, exp) := format_float (as_double I m) m P fs in do_write_float E pt out (SChars buffer) exp sp fs')).
    { intros P fs (ds & j & -> & _ & _ & Hl) fs'. cbn [bind]. destruct (layout_total E pt (digit_text ds) j sp fs' HE Hw ltac:(rewrite digit_text_length; lia)) as [t Ht]. by exists t. }
    unfold float_body, parse_float_type_spec, set_fs_sign, set_fs_precision, set_fs_binary32.
    destruct pr as [|u|u|u|u]; cbn [fs_format fs_precision fs_sign fs_upper fs_locale fs_binary32 fs_showpoint refuses].
    - left. split; [|tauto]. rewrite !decide_False by done. rewrite (decide_True (P := 0 <= _ \/ _)) by (by right).
      destruct (decide (General <> Fixed /\ precision sp = 0)) as [H0|H0]; cbn [bind].
      + pose proof (rounded_few 1 General sg false (alt sp || false) ltac:(done) ltac:(lia)) as Hf.
        unfold fspecs in Hf. rewrite (digits_locale _ _ _ _ _ _ false _ (localized sp)) in Hf. destruct (carrier_bits I =? 32); exact (Hlay _ _ Hf _).
      + assert (precision sp <> 0) by (intros ?; by apply H0). destruct (decide (precision sp = -1)) as [Hm1|Hm1].
        * rewrite Hm1. pose proof (shortest_few sg (alt sp || false)) as Hf.
          unfold fspecs in Hf. rewrite (digits_locale _ _ _ _ _ _ false _ (localized sp)) in Hf. destruct (carrier_bits I =? 32); exact (Hlay _ _ Hf _).
        * pose proof (rounded_few (precision sp) General sg false (alt sp || false) ltac:(done) ltac:(lia)) as Hf.
          unfold fspecs in Hf. rewrite (digits_locale _ _ _ _ _ _ false _ (localized sp)) in Hf. destruct (carrier_bits I =? 32); exact (Hlay _ _ Hf _).
    - left. split; [|tauto]. rewrite !(decide_False (P := General = _)) by done.
      set (q := if decide (0 <= precision sp \/ _) then _ else _). assert (Hq : 0 <= q) by (unfold q; case_decide as H; [destruct H; lia || done|lia]).
      destruct (decide (General <> Fixed /\ q = 0)) as [H0|H0]; cbn [bind].
      + pose proof (rounded_few 1 General sg u (alt sp || false) ltac:(done) ltac:(lia)) as Hf.
        unfold fspecs in Hf. rewrite (digits_locale _ _ _ _ _ _ false _ (localized sp)) in Hf. destruct (carrier_bits I =? 32); exact (Hlay _ _ Hf _).
      + assert (q <> 0) by (intros ?; by apply H0).
        pose proof (rounded_few q General sg u (alt sp || false) ltac:(done) ltac:(lia)) as Hf.
        unfold fspecs in Hf. rewrite (digits_locale _ _ _ _ _ _ false _ (localized sp)) in Hf. destruct (carrier_bits I =? 32); exact (Hlay _ _ Hf _).
    - set (q := if decide (0 <= precision sp \/ _) then _ else _).
      assert (Hq : 0 <= q /\ (q = max_int <-> precision sp = max_int)).
      { unfold q. case_decide as H; [destruct H; [done|done]|]. split; [lia|]. unfold max_int in *. assert (~ 0 <= precision sp) by tauto. lia. }
      destruct Hq as [Hq Hqm]. destruct (decide (q = max_int)) as [Hbig|Hno].
      + right. split; [done|by apply Hqm].
      + left. split; [|by rewrite <- Hqm]. cbn [bind].
        pose proof (rounded_few (q + 1) Exp sg u (alt sp || negb (precision sp =? 0)) ltac:(done) ltac:(lia)) as Hf.
        unfold fspecs in Hf. rewrite (digits_locale _ _ _ _ _ _ false _ (localized sp)) in Hf. destruct (carrier_bits I =? 32); exact (Hlay _ _ Hf _).
    - assert (Hq : (if decide (0 <= precision sp \/ FFixed u = FNone) then precision sp else 6) = given (precision sp)).
      { unfold given. destruct (decide (0 <= precision sp)); [rewrite decide_True by (by left)|rewrite decide_False by (intros [|]; done)]; done. }
      rewrite Hq.
      assert (Hg : 0 <= given (precision sp)) by (unfold given; destruct (decide (0 <= precision sp)); lia).
      destruct (fixed_few (given (precision sp)) sg u (alt sp || negb (precision sp =? 0)) Hg) as [[Hf Hno]|[Ht Hyes]].
      + left. split; [|done]. unfold fspecs in Hf. rewrite (digits_locale _ _ _ _ _ _ false _ (localized sp)) in Hf.
        destruct (carrier_bits I =? 32); exact (Hlay _ _ Hf _).
      + right. split; [|done]. intros out. unfold fspecs in Ht. rewrite (digits_locale _ _ _ _ _ _ false _ (localized sp)) in Ht.
        assert (Hb : forall r (g : list Z * Z -> res (list Z)), r = Throw -> bind r g = Throw) by (by intros r g ->).
        destruct (carrier_bits I =? 32); exact (Hb _ _ Ht).
    - left. split; [|tauto].
      set (f := Field [] None None (alt sp) false NoCount NoCount false None).
      destruct (hex_body E pt I F m u f (precision sp) HIF Hm) as (q & n & x & text & _ & _ & Hrun).
      set (sp' := Specs (width sp) (precision sp) (typ sp) (al sp) (sgn sp) (alt sp) false (fill sp) (width_ref sp) (precision_ref sp)).
      assert (Hsp' : body_specs f (precision sp) sp') by (unfold body_specs; cbn [sp' width precision alt localized f f_alternate]; split_and!; try done; lia).
      exists (float_in sp' (sign_chars sg ++ text)). intros out. exact (Hrun out sp' sg Hsp').
  Qed.
End total.

(** ** write_float, for all specs *)
Lemma write_total E pt I F br pr sp : kind_of I F -> env_ok E -> 0 <= br < 2 ^ carrier_bits I -> 0 <= width sp < 2 ^ 31 -> -1 <= precision sp <= max_int ->
  let m := br mod 2 ^ (carrier_bits I - 1) in let finite := m < (emax F - emin F + 2) * 2 ^ (prec F - 1) in
  written (fun out => write_float_specs E pt I out br pr sp) /\ ~ (finite /\ refuses F m pr (precision sp)) \/
  (forall out, write_float_specs E pt I out br pr sp = Throw) /\ finite /\ refuses F m pr (precision sp).
Proof.
  intros HIF HE Hbr Hw Hp m finite. unfold write_float_specs.
  destruct (sign_bit_ok I F br HIF Hbr) as [-> ->]. fold m. cbv zeta.
  assert (Hmr : 0 <= m < 2 ^ (carrier_bits I - 1)).
  { apply Z.mod_pos_bound. destruct HIF as [[-> _]|[-> _]]; done. }
  pose proof (finite_test I F m HIF Hmr) as Hfin. fold finite in Hfin.
  set (sg := if 2 ^ (carrier_bits I - 1) <=? br then SMinus else _).
  destruct (decide (Z.land m (exponent_mask I) = exponent_mask I)) as [Hi|Hi].
  - left. split; [|intros [H _]; unfold finite in H; apply Hfin in Hi; lia]. unfold write_nonfinite.
    eexists. intros out. apply write_padded_ok; [destruct (decide (fill sp = [48])); done| |reflexivity].
    by destruct (fs_sign _).
  - assert (Hfi : finite) by (unfold finite; lia).
    destruct (decide (al sp = ANumeric /\ fs_sign (set_fs_sign (parse_float_type_spec pr sp) sg) <> SNone)) as [Hn|Hn].
    + set (sp1 := if decide (width sp <> 0) then set_width sp (width sp - 1) else sp).
      assert (Hsp1 : 0 <= width sp1 < 2 ^ 31 /\ precision sp1 = precision sp) by (unfold sp1; case_decide; cbn; [split; [lia|done]|done]).
      destruct Hsp1 as [Hw1 Hp1].
      assert (Hfs : set_fs_sign (set_fs_sign (parse_float_type_spec pr sp) sg) SNone = set_fs_sign (parse_float_type_spec pr sp1) SNone).
      { unfold sp1. destruct (decide (width sp <> 0)); by destruct pr. }
      destruct (body_total E pt I F HIF HE m (conj (proj1 Hmr) Hfi) pr sp1 SNone Hw1 ltac:(by rewrite Hp1)) as [[[t Ht] Hno]|[Ht Hyes]].
      * left. rewrite Hp1 in Hno. split; [|by intros [_ ?]]. exists (sign_chars (fs_sign (set_fs_sign (parse_float_type_spec pr sp) sg)) ++ t). intros out.
        rewrite Hfs. rewrite app_assoc. exact (Ht _).
      * right. rewrite Hp1 in Hyes. split; [|done]. intros out. rewrite Hfs. exact (Ht _).
    + destruct (body_total E pt I F HIF HE m (conj (proj1 Hmr) Hfi) pr sp sg Hw Hp) as [[[t Ht] Hno]|[Ht Hyes]].
      * left. split; [|by intros [_ ?]]. exists t. exact Ht.
      * right. split; [exact Ht|done].
Qed.

(** ** Without options *)
Lemma general_unique ds j s s' : general_text ds j s -> general_text ds j s' -> s = s'.
Proof. unfold general_text. case_decide; [congruence|]. apply sci_unique. Qed.

Lemma default_run I {C} (A : cache_accessor C) F E out br n e ds : (I = float_info_double /\ F = binary64) \/ (I = float_info_float /\ F = binary32) ->
  0 <= br < 2 ^ carrier_bits I -> br mod 2 ^ (carrier_bits I - 1) < (emax F - emin F + 2) * 2 ^ (prec F - 1) ->
  to_decimal I A (br mod 2 ^ (carrier_bits I - 1)) = Ok (n, e) -> digits_of 10 n ds -> 0 <= n < 2 ^ carrier_bits I ->
  -9999 < e + Z.of_nat (length ds) < 10000 ->
  exists text, general_text ds e text /\
    write_float_default E I A out br = Ok (out ++ minus_text (2 ^ (carrier_bits I - 1) <=? br) ++ text).
Proof.
  intros HIF Hbr Hm Hrun Hds Hn Hx.
  assert (HW : carrier_bits I = 32 \/ carrier_bits I = 64) by (destruct HIF as [[-> ->]|[-> ->]]; auto).
  assert (Hne : ds <> []) by apply Hds. assert (Hf : all_digits ds) by apply Hds.
  assert (Hsig : sig_ok (SNumber (carrier_bits I) n) ds) by (apply sig_number; [done|done|done]).
  destruct (default_layout E 46 out (SNumber (carrier_bits I) n) ds e (if 2 ^ (carrier_bits I - 1) <=? br then SMinus else SNone) Hsig Hne Hx)
    as (text & Htext & Hlay).
  exists text. split; [done|].
  assert (Hstart : write_float_default E I A out br =
    let* (n, e) := to_decimal I A (br mod 2 ^ (carrier_bits I - 1)) in
    do_write_float E 46 out (SNumber (carrier_bits I) n) e default_specs (fs_of (2 ^ (carrier_bits I - 1) <=? br))).
  { unfold write_float_default. destruct (sign_bit_ok I F br HIF Hbr) as [-> ->].
    assert (Hmr : 0 <= br mod 2 ^ (carrier_bits I - 1) < 2 ^ (carrier_bits I - 1)) by (apply Z.mod_pos_bound; destruct HW as [-> | ->]; done).
    pose proof (finite_test I F _ HIF Hmr) as Hfin.
    rewrite (decide_False (P := Z.land _ (exponent_mask I) = exponent_mask I)) by (intros H%Hfin; lia).
    by destruct (2 ^ (carrier_bits I - 1) <=? br). }
  rewrite Hstart, Hrun. cbn [bind]. unfold fs_of. rewrite Hlay. by destruct (2 ^ (carrier_bits I - 1) <=? br).
Qed.

Lemma default_same I {C} (A : cache_accessor C) F E pt out br : kind_of I F -> 0 <= br < 2 ^ carrier_bits I ->
  (forall m, to_decimal I A m = if carrier_bits I =? 32 then to_decimal_float m else to_decimal_double m) ->
  write_float_default E I A out br = write_float_specs E pt I out br FNone default_specs.
Proof.
  intros HIF Hbr HA. set (m := br mod 2 ^ (carrier_bits I - 1)).
  destruct (decide (m < (emax F - emin F + 2) * 2 ^ (prec F - 1))) as [Hfin|Hinf].
  - assert (Hm : 0 <= m < (emax F - emin F + 2) * 2 ^ (prec F - 1)).
    { split; [|done]. apply Z.mod_pos_bound. destruct HIF as [[-> _]|[-> _]]; done. }
    assert (Hboth : forall n e ds text, to_decimal I A m = Ok (n, e) -> digits_of 10 n ds -> 0 <= n < 2 ^ carrier_bits I ->
      -9999 < e + Z.of_nat (length ds) < 10000 -> general_text ds e text ->
      (forall out sg sp, 0 <= width sp < 2 ^ 31 ->
        float_rest E pt I out m (-1) General sg false false sp = Ok (out ++ float_in sp (sign_chars sg ++ text))) ->
      write_float_default E I A out br = write_float_specs E pt I out br FNone default_specs).
    { intros n e ds text Hrun Hds Hn Hx Htext Hrest.
      destruct (default_run I A F E out br n e ds HIF Hbr Hfin Hrun Hds Hn Hx) as (text' & Htext' & ->).
      rewrite (general_unique ds e text' text Htext' Htext).
      pose proof (frame E pt I F out br FNone TemplateSpec.no_options 0 (-1) RNone RNone text HIF Hbr Hfin ltac:(lia) eq_refl) as Hf. cbv zeta in Hf.
      change (specs_of TemplateSpec.no_options 0 (-1) RNone RNone) with default_specs in Hf. rewrite Hf.
      - do 2 f_equal. unfold number_in_field. cbn [TemplateSpec.no_options zero_padded f_zero f_align andb]. unfold in_field.
        rewrite Z.max_l by lia. unfold field_sign, plus_text. cbn [f_sign TemplateSpec.no_options]. unfold place. cbn [f_align].
        by destruct (2 ^ (carrier_bits I - 1) <=? br).
      - intros out' sp sg Hsp. rewrite (body_shortest E pt I out' _ TemplateSpec.no_options (-1) sp sg Hsp ltac:(lia)). apply Hrest, Hsp. }
    destruct (as_double_zero I F m HIF Hm) as [[Hz Hzd]|[Hfi Hnz]].
    + apply (Hboth 0 0 [0] [48]).
      * rewrite HA, Hz. destruct to_decimal_zero as [H1 H2]. by destruct (carrier_bits I =? 32).
      * split_and!; [repeat constructor; lia|done..].
      * destruct HIF as [[-> _]|[-> _]]; done.
      * done.
      * done.
      * intros out' sg sp Hw. rewrite (zero_general E pt I F HIF m Hm (-1) false false Hz out' sg sp Hw). by rewrite app_nil_r.
    + destruct (shortest_run E pt I F HIF m Hm (-1) false Hfi ltac:(lia)) as (s & j & ds & text & Hrun & Hs & Hl & _ & Hds & Htext & Hrest).
      apply (Hboth s j ds text); try done; try lia. by rewrite HA.
  - assert (Hmr : 0 <= m < 2 ^ (carrier_bits I - 1)).
    { apply Z.mod_pos_bound. destruct HIF as [[-> _]|[-> _]]; done. }
    unfold write_float_default, write_float_specs. destruct (sign_bit_ok I F br HIF Hbr) as [-> ->]. fold m.
    pose proof (finite_test I F _ HIF Hmr) as Hf.
    rewrite !(decide_True (P := Z.land m (exponent_mask I) = exponent_mask I)) by (apply Hf; lia).
    by destruct (2 ^ (carrier_bits I - 1) <=? br).
Qed.
Lemma double_same E pt out br : 0 <= br < 2 ^ 64 ->
  write_double E out br = write_float_specs E pt float_info_double out br FNone default_specs.
Proof. intros Hbr. apply (default_same float_info_double accessor_double binary64); [by left|done|done]. Qed.
Lemma float_same E pt out br : 0 <= br < 2 ^ 32 ->
  write_float E out br = write_float_specs E pt float_info_float out br FNone default_specs.
Proof. intros Hbr. apply (default_same float_info_float accessor_float binary32); [by right|done|done]. Qed.
