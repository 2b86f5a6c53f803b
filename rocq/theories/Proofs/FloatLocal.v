(** The text of floating-point numbers in the format of the locale. *)
From Coq Require Import QArith Qpower Qabs Lqa.
From Verif Require Import Base.Cpp Model.Numeric Model.FmtInt Model.Format Model.Dragonbox Model.FloatLayout Model.Bigint Model.FloatDigits
  Spec.FormatSpec Spec.FieldSpec Spec.FloatSpec Spec.FloatText Spec.FloatRound Spec.FloatField
  Proofs.FmtIntProofs Proofs.GroupingProofs Proofs.FormatWrite Proofs.FormatValue Proofs.FloatSpecProofs Proofs.DragonboxArith Proofs.DragonboxProofs Proofs.SegmentProofs
  Proofs.FirstSegment Proofs.DragonProofs Proofs.FloatLayoutProofs Proofs.FloatTextProofs Proofs.FloatDigitsProofs
  Proofs.FloatPrecisionProofs Proofs.FloatFieldProofs Proofs.HexFloatProofs Proofs.FloatWriteProofs.
Set Default Proof Using "Type".
Ltac Zify.zify_post_hook ::= idtac.
Local Open Scope Z_scope.

Definition repoint (pt : Z) (rest : list Z) : list Z := match rest with 46 :: r => pt :: r | _ => rest end.
Definition no_digit (rest : list Z) : Prop := forall c, head rest = Some c -> ~ 48 <= c <= 57.
Definition group_text (G : env) (ip : list Z) : list Z := interleave (sep G) (first_ends G (length ip)) (digit_text ip).

Lemma group_length G ip : env_ok G -> (length (sep G) <= 1)%nat -> length (group_text G ip) = (length ip + length (first_ends G (length ip)))%nat.
Proof.
  intros HG Hs. unfold group_text.
  assert (HP : NoDup (first_ends G (length ip)) /\ Forall (fun k => 0 < k < Z.of_nat (length ip)) (first_ends G (length ip))).
  { unfold first_ends. destruct (sep G); [split; constructor|]. destruct (ends_sorted (length ip) (grouping G) 0 (Z.of_nat (length ip))) as [H1 H2].
    split; [|done]. clear -H1. induction H1 as [|x l H IH Hx]; constructor; [|done]. intros Hin. eapply Forall_forall in Hx; [|exact Hin]. lia. }
  destruct HP as [H1 H2]. rewrite interleave_length; [|done|by rewrite digit_text_length].
  unfold first_ends. destruct (sep G) as [|c [|? ?]]; cbn in Hs |- *; [|rewrite digit_text_length; lia|lia]. rewrite digit_text_length. lia.
Qed.

Lemma group_one G d : group_text G [d] = digit_text [d].
Proof.
  unfold group_text. cbn [length]. assert (HP : Forall (fun k => 0 < k < 1) (first_ends G 1)).
  { unfold first_ends. destruct (sep G); [constructor|]. apply (ends_sorted 1 (grouping G) 0 1). }
  destruct (first_ends G 1) as [|k l]; [done|]. apply Forall_cons in HP as [? _]. lia.
Qed.
Lemma separators_of G n : env_ok G -> 0 <= n <= max_int -> count_separators G n = Ok (Z.of_nat (length (first_ends G (Z.to_nat n)))).
Proof. intros HG Hn. rewrite <- (Z2Nat.id n) at 1 by lia. apply count_separators_ok; [done|lia]. Qed.
Lemma apply_groups G out ip : env_ok G -> Z.of_nat (length ip) <= max_int ->
  (if has_separator G then group_apply G out (digit_text ip) else Ok (out ++ digit_text ip)) = Ok (out ++ group_text G ip).
Proof.
  intros HG Hl. unfold group_text. destruct (has_separator G) eqn:Hs.
  - rewrite group_apply_ok; [by rewrite digit_text_length|done|by rewrite digit_text_length].
  - unfold has_separator in Hs. destruct (sep G); [|done]. by rewrite interleave_no_sep.
Qed.

Lemma layout_local E pt ds e P fmt u b point : env_ok E -> (length (sep E) <= 1)%nat -> pt <> 0 -> all_digits ds -> (ds <> [] \/ e < 0 /\ fmt = Fixed) ->
  -9999 < e + Z.of_nat (length ds) < 9999 ->
  exists ip rest, all_digits ip /\ ip <> [] /\ no_digit rest /\
    forall (loc : bool) out sp sg, 0 <= width sp < 2 ^ 31 ->
      let pt' := if loc then pt else 46 in
      do_write_float E pt out (SChars (digit_text ds)) e sp (FSpecs P fmt sg u loc b point)
      = Ok (out ++ float_in sp (sign_chars sg ++ group_text (float_grouping E loc) ip ++ repoint pt' rest)).
Proof.
  intros HE Hsep Hpt Hds Hne Hx. unfold do_write_float. cbn [get_significand_size bind fs_sign fs_locale fs_showpoint fs_precision fs_upper fs_format].
  rewrite digit_text_length. set (len := Z.of_nat (length ds)) in *.
  assert (Hlen : 0 <= len) by (unfold len; lia). rewrite to_unsigned_ok by lia. cbn [bind]. cbv zeta.
  assert (Huse : forall (loc : bool) (sg : sign), use_exp_format (FSpecs P fmt sg u loc b point) (e + len - 1) = use_exp_format (FSpecs P fmt SNone u false b point) (e + len - 1)) by done.
  assert (HG : forall loc : bool, env_ok (float_grouping E loc)) by (intros; by apply grouping_env).
  assert (HGs : forall loc : bool, (length (sep (float_grouping E loc)) <= 1)%nat) by (intros []; cbn; lia).
  destruct (use_exp_format (FSpecs P fmt SNone u false b point) (e + len - 1)) eqn:Huse0.
  - destruct ds as [|d tl]; [destruct Hne as [|[_ ->]]; done|].
    destruct (write_exponent_ok u (e + len - 1) ltac:(lia)) as (ex & Hex & _ & Hexl).
    set (nz := if point then Z.max 0 (P - len) else 0). assert (Hnz : 0 <= nz) by (unfold nz; destruct point; lia).
    set (pointed := point || negb (len =? 1)).
    set (rest := (if pointed then [46] else []) ++ digit_text tl ++ replicate (Z.to_nat nz) 48 ++ [if u then 69 else 101] ++ ex).
    assert (Htl : pointed = false -> tl = [] /\ nz = 0).
    { unfold pointed, nz. destruct point; [done|]. cbn [orb]. intros H. apply negb_false_iff, Z.eqb_eq in H. split; [|done]. destruct tl; [done|].
      unfold len in H. cbn in H. lia. }
    exists [d], rest. apply Forall_cons in Hds as [Hd Htld]. split; [constructor; [done|apply Forall_nil_2]|]. split; [done|]. split.
    { unfold no_digit, rest. destruct pointed eqn:Hp; cbn [app head]; [intros c [= <-]; lia|].
      destruct (Htl eq_refl) as [-> Hz]. rewrite Hz. cbn. destruct u; intros c [= <-]; lia. }
    intros loc out sp sg Hw. rewrite Huse. set (pt' := if loc then pt else 46). assert (Hpt' : pt' <> 0) by (unfold pt'; by destruct loc).
    assert (Hm : (if point then
        let* z := to_unsigned (if decide (P - len < 0) then 0 else P - len) in Ok (if decide (P - len < 0) then 0 else P - len, pt', len + sign_size sg + z)
      else if decide (len = 1) then Ok (0, 0, len + sign_size sg) else Ok (0, pt', len + sign_size sg))
      = Ok (nz, (if pointed then pt' else 0), len + sign_size sg + nz)).
    { unfold nz, pointed. destruct point; cbn [orb].
      - replace (if decide (P - len < 0) then 0 else P - len) with (Z.max 0 (P - len)) by (destruct (decide (P - len < 0)); lia).
        rewrite to_unsigned_ok by lia. done.
      - rewrite Z.add_0_r. destruct (decide (len = 1)) as [->|Hl1]; [done|]. by rewrite (proj2 (Z.eqb_neq _ _) Hl1). }
    rewrite Hm. cbn [bind].
    set (ab := if decide (0 <= e + len - 1) then e + len - 1 else - (e + len - 1)).
    assert (Hab : ab = Z.abs (e + len - 1)) by (unfold ab; destruct (decide (0 <= e + len - 1)); [rewrite Z.abs_eq by lia|rewrite Z.abs_neq by lia]; done). rewrite Hab.
    set (ed := if decide (100 <= Z.abs (e + len - 1)) then _ else _) in *.
    assert (Hed : 0 <= ed) by (unfold ed; repeat case_decide; lia).
    assert (Hpz : (if decide ((if pointed then pt' else 0) = 0) then 0 else 1) = if pointed then 1 else 0).
    { destruct pointed; [by rewrite decide_False|by rewrite decide_True]. }
    rewrite Hpz. rewrite to_unsigned_ok by (destruct pointed; lia). cbn [bind].
    assert (Hwp : write_point (SChars (digit_text (d :: tl))) len 1 (if pointed then pt' else 0) = Ok (digit_text [d] ++ (if pointed then [pt'] else []) ++ digit_text tl)).
    { unfold write_point. change (Z.to_nat 1) with 1%nat. change (digit_text (d :: tl)) with (digit_char false d :: digit_text tl).
      change (take 1 (digit_char false d :: digit_text tl)) with [digit_char false d]. change (drop 1 (digit_char false d :: digit_text tl)) with (digit_text tl).
      destruct pointed eqn:Hp.
      - rewrite decide_False by done. rewrite take_ge; [done|]. rewrite digit_text_length. unfold len. cbn [length]. lia.
      - rewrite decide_True by done. destruct (Htl eq_refl) as [-> _]. done. }
    rewrite Hwp, Hex. cbn [bind]. rewrite group_one.
    set (text := sign_chars sg ++ digit_text [d] ++ repoint pt' rest).
    assert (Hrest : repoint pt' rest = (if pointed then [pt'] else []) ++ digit_text tl ++ replicate (Z.to_nat nz) 48 ++ [if u then 69 else 101] ++ ex).
    { unfold rest. destruct pointed; [done|]. destruct (Htl eq_refl) as [-> ->]. by destruct u. }
    assert (Hsize : len + sign_size sg + nz + ((if pointed then 1 else 0) + 2 + ed) = Z.of_nat (length text)).
    { unfold text. rewrite Hrest, !app_length, !digit_text_length, replicate_length. pose proof (sign_chars_length sg). unfold len. cbn [length].
      destruct pointed; cbn [length]; lia. }
    assert (Hrun : forall it, Ok ((((it ++ sign_chars sg) ++ (digit_text [d] ++ (if pointed then [pt'] else []) ++ digit_text tl) ++ replicate (Z.to_nat nz) 48) ++ [if u then 69 else 101]) ++ ex) = Ok (it ++ text)).
    { intros it. f_equal. unfold text. rewrite Hrest, <- !app_assoc. done. }
    destruct (decide (width sp > 0)).
    + rewrite Hsize. unfold float_in. apply write_padded_ok; [done|lia|]. exact Hrun.
    + unfold float_in. rewrite in_field_none by lia. apply Hrun.
  - destruct (decide (0 <= e)) as [He|He]; [|destruct (decide (0 < e + len)) as [Hp|Hp]].
    + destruct Hne as [Hne|[? _]]; [|lia]. set (nz := P - (e + len)).
      set (nz' := if decide (nz <= 0 /\ fmt <> Fixed) then 0 else nz).
      set (rest := if point then 46 :: replicate (Z.to_nat nz') 48 else []).
      exists (ds ++ replicate (Z.to_nat e) 0), rest.
      assert (Hall : all_digits (ds ++ replicate (Z.to_nat e) 0)) by (apply Forall_app; split; [done|apply replicate_all_digits]).
      split; [done|]. split; [by destruct ds|]. split; [unfold no_digit, rest; destruct point; cbn; [intros c [= <-]; lia|done]|].
      intros loc out sp sg Hw. rewrite Huse. set (pt' := if loc then pt else 46). rewrite to_unsigned_ok by lia. cbn [bind].
      fold nz. fold nz'. set (size := len + sign_size sg + e).
      assert (Hm : (if point then if decide (nz' > 0) then let* z := to_unsigned nz' in Ok (nz', size + 1 + z) else Ok (nz', size + 1) else Ok (nz, size))
        = Ok (if point then nz' else nz, size + Z.of_nat (length rest))).
      { unfold rest. destruct point; [|by rewrite Z.add_0_r]. cbn [length]. rewrite replicate_length.
        destruct (decide (nz' > 0)); [rewrite to_unsigned_ok by lia|]; cbn [bind]; do 2 f_equal; lia. }
      rewrite Hm. cbn [bind].
      set (G := float_grouping E loc). specialize (HG loc). specialize (HGs loc). fold G in HG, HGs.
      rewrite separators_of by (unfold max_int; lia || done). cbn [bind]. rewrite to_unsigned_ok by lia. cbn [bind].
      assert (Hlip : length (ds ++ replicate (Z.to_nat e) 0) = Z.to_nat (e + len)) by (rewrite app_length, replicate_length; unfold len; lia).
      set (text := sign_chars sg ++ group_text G (ds ++ replicate (Z.to_nat e) 0) ++ repoint pt' rest).
      assert (Hrest : repoint pt' rest = if point then pt' :: replicate (Z.to_nat nz') 48 else []) by (unfold rest; by destruct point).
      assert (Hsize : size + Z.of_nat (length rest) + Z.of_nat (length (first_ends G (Z.to_nat (e + len)))) = Z.of_nat (length text)).
      { unfold text. rewrite !app_length, group_length, Hlip by done. pose proof (sign_chars_length sg).
        replace (length (repoint pt' rest)) with (length rest) by (rewrite Hrest; unfold rest; by destruct point). unfold size. lia. }
      rewrite Hsize. unfold float_in. apply write_padded_ok; [done|lia|]. intros it. unfold write_with_zeros, write_digits. cbn [bind].
      rewrite take_ge by (rewrite digit_text_length; unfold len; lia). rewrite <- digit_zeros.
      assert (Hcat : digit_text ds ++ digit_text (replicate (Z.to_nat e) 0) = digit_text (ds ++ replicate (Z.to_nat e) 0)) by (unfold digit_text; by rewrite fmap_app).
      rewrite Hcat. rewrite apply_groups; [|done|rewrite Hlip; unfold max_int; lia]. cbn [bind]. unfold text. rewrite Hrest.
      destruct point; cbn [negb]; by rewrite <- ?app_assoc, ?app_nil_r.
    + set (n := Z.to_nat (e + len)). set (nz := if point then P - len else 0).
      set (rest := 46 :: digit_text (drop n ds) ++ replicate (Z.to_nat nz) 48).
      exists (take n ds), rest. split; [by apply Forall_take|].
      assert (Hlip : length (take n ds) = n) by (rewrite take_length; unfold n, len in *; lia).
      split; [intros H; rewrite H in Hlip; cbn in Hlip; unfold n in Hlip; lia|]. split; [intros c [= <-]; lia|].
      intros loc out sp sg Hw. rewrite Huse. set (pt' := if loc then pt else 46). assert (Hpt' : pt' <> 0) by (unfold pt'; by destruct loc). fold nz.
      rewrite to_unsigned_ok by (case_decide; lia). cbn [bind].
      set (G := float_grouping E loc). specialize (HG loc). specialize (HGs loc). fold G in HG, HGs.
      rewrite separators_of by (unfold max_int; lia || done). cbn [bind]. rewrite to_unsigned_ok by lia. cbn [bind].
      set (text := sign_chars sg ++ group_text G (take n ds) ++ repoint pt' rest).
      assert (Hsize : len + sign_size sg + 1 + (if decide (nz > 0) then nz else 0) + Z.of_nat (length (first_ends G n)) = Z.of_nat (length text)).
      { unfold text. rewrite !app_length, group_length, Hlip by done. pose proof (sign_chars_length sg). cbn [repoint rest length].
        rewrite app_length, digit_text_length, drop_length, replicate_length. fold len.
        assert (len = Z.of_nat (length ds)) by done. unfold n in *. destruct (decide (nz > 0)); lia. }
      fold n. rewrite Hsize. unfold float_in. apply write_padded_ok; [done|lia|]. intros it. unfold write_point_grouped, write_point.
      rewrite decide_False by done. cbn [bind]. fold n.
      assert (Htk : take n (digit_text ds) = digit_text (take n ds)) by (unfold digit_text; by rewrite fmap_take).
      assert (Hdr : take (Z.to_nat (len - (e + len))) (drop n (digit_text ds)) = digit_text (drop n ds)).
      { rewrite take_ge; [unfold digit_text; by rewrite fmap_drop|]. rewrite drop_length, digit_text_length. unfold n, len in *. lia. }
      rewrite Htk, Hdr. rewrite to_unsigned_ok by lia. cbn [bind]. fold n.
      rewrite take_app_alt by (by rewrite digit_text_length, Hlip). rewrite drop_app_alt by (by rewrite digit_text_length, Hlip).
      pose proof (apply_groups G (it ++ sign_chars sg) (take n ds) HG ltac:(rewrite Hlip; unfold n, max_int; lia)) as Hap.
      destruct (has_separator G).
      * rewrite Hap. cbn [bind]. unfold text. cbn [repoint rest]. rewrite <- !app_assoc. done.
      * injection Hap as Hap. cbn [bind]. unfold text. cbn [repoint rest]. rewrite (app_assoc (it ++ sign_chars sg)), Hap. rewrite <- !app_assoc. done.
    + set (nz := if decide (len = 0 /\ 0 <= P /\ P < - (e + len)) then P else - (e + len)).
      assert (Hnz : 0 <= nz) by (unfold nz; case_decide; lia).
      set (pointy := negb (nz =? 0) || negb (len =? 0) || point).
      set (rest := if pointy then 46 :: replicate (Z.to_nat nz) 48 ++ digit_text ds else []).
      assert (Hpy : pointy = false -> nz = 0 /\ len = 0).
      { unfold pointy. intros H. apply orb_false_iff in H as [H _]. apply orb_false_iff in H as [H1 H2]. apply negb_false_iff, Z.eqb_eq in H1, H2. done. }
      exists [0], rest. split; [by repeat constructor|]. split; [done|]. split; [unfold no_digit, rest; destruct pointy; cbn; [intros c [= <-]; lia|done]|].
      intros loc out sp sg Hw. rewrite Huse. set (pt' := if loc then pt else 46). fold nz. rewrite to_unsigned_ok by lia. cbn [bind]. fold pointy.
      rewrite group_one. set (text := sign_chars sg ++ digit_text [0] ++ repoint pt' rest).
      assert (Hrest : repoint pt' rest = if pointy then pt' :: replicate (Z.to_nat nz) 48 ++ digit_text ds else []) by (unfold rest; by destruct pointy).
      assert (Hsize : len + sign_size sg + 1 + (if pointy then 1 else 0) + nz = Z.of_nat (length text)).
      { unfold text. rewrite Hrest, !app_length. pose proof (sign_chars_length sg). rewrite digit_text_length. cbn [length].
        destruct pointy eqn:Hp1; cbn [length]; [rewrite app_length, replicate_length, digit_text_length; fold len; unfold len; lia|].
        destruct (Hpy eq_refl). lia. }
      rewrite Hsize. unfold float_in. apply write_padded_ok; [done|lia|]. intros it. unfold write_digits. cbn [bind]. unfold text. rewrite Hrest.
      rewrite take_ge by (rewrite digit_text_length; unfold len; lia).
      destruct pointy; cbn [negb]; by rewrite <- ?app_assoc.
Qed.

(** ** Without the sign *)
Section local.
  Context (E : env) (pt : Z) (I : float_info) (F : format) (HIF : kind_of I F) (HE : env_ok E) (Hsep : (length (sep E) <= 1)%nat) (Hpt : pt <> 0) (m : Z).
  Hypothesis Hm : 0 <= m < (emax F - emin F + 2) * 2 ^ (prec F - 1).

  Definition body_writes (pr : float_pres) (p : Z) (a : bool) (ip rest : list Z) : Prop :=
    forall out sp sg, 0 <= width sp < 2 ^ 31 -> precision sp = p -> alt sp = a ->
      float_body E pt I out m pr sp (set_fs_sign (parse_float_type_spec pr sp) sg)
      = Ok (out ++ float_in sp (sign_chars sg ++ group_text (float_grouping E (localized sp)) ip ++ repoint (if localized sp then pt else 46) rest)).

  Lemma body_local pr p a : -1 <= p <= max_int -> (forall u, pr <> FHex u) -> ~ refuses F m pr p ->
    exists ip rest, all_digits ip /\ ip <> [] /\ no_digit rest /\ body_writes pr p a ip rest.
  Proof using HIF HE Hsep Hpt Hm.
    intros Hp Hnh Hno.
    assert (Hlay : forall P fmt u point, (forall sg, few fmt (format_float (as_double I m) m P (fspecs I 0 fmt sg u point))) ->
      exists ip rest, all_digits ip /\ ip <> [] /\ no_digit rest /\
        forall (loc : bool) out sp sg, 0 <= width sp < 2 ^ 31 ->
          (let* (buffer, exp) := format_float (as_double I m) m P (FSpecs 0 fmt sg u loc (carrier_bits I =? 32) point) in
           do_write_float E pt out (SChars buffer) exp sp (FSpecs P fmt sg u loc (carrier_bits I =? 32) point))
          = Ok (out ++ float_in sp (sign_chars sg ++ group_text (float_grouping E loc) ip ++ repoint (if loc then pt else 46) rest))).
    { intros P fmt u point Hf. destruct (Hf SNone) as (ds & j & Hff & Hds & Hne & Hl).
      destruct (layout_local E pt ds j P fmt u (carrier_bits I =? 32) point HE Hsep Hpt Hds Hne ltac:(lia)) as (ip & rest & H1 & H2 & H3 & H4).
      exists ip, rest. split_and!; [done..|]. intros loc out sp sg Hw.
      assert (Hsame : format_float (as_double I m) m P (FSpecs 0 fmt sg u loc (carrier_bits I =? 32) point) = Ok (digit_text ds, j)) by (rewrite <- Hff; done).
      rewrite Hsame. cbn [bind]. by apply H4. }
    unfold body_writes, float_body, parse_float_type_spec, set_fs_sign, set_fs_precision, set_fs_binary32.
    assert (Hwhole : forall pr' P fmt u point, (forall sg, few fmt (format_float (as_double I m) m P (fspecs I 0 fmt sg u point))) ->
      (forall out sp sg, precision sp = p -> alt sp = a ->
        float_body E pt I out m pr' sp (set_fs_sign (parse_float_type_spec pr' sp) sg)
        = let* (buffer, exp) := format_float (as_double I m) m P (FSpecs 0 fmt sg u (localized sp) (carrier_bits I =? 32) point) in
          do_write_float E pt out (SChars buffer) exp sp (FSpecs P fmt sg u (localized sp) (carrier_bits I =? 32) point)) ->
      exists ip rest, all_digits ip /\ ip <> [] /\ no_digit rest /\ body_writes pr' p a ip rest).
    { intros pr' P fmt u point Hf Heq. destruct (Hlay P fmt u point Hf) as (ip & rest & H1 & H2 & H3 & H4).
      exists ip, rest. split_and!; [done..|]. intros out sp sg Hw Hsp Ha. rewrite Heq by done. by apply H4. }
    destruct pr as [|u|u|u|u]; [..|by destruct (Hnh u)].
    - destruct (decide (p = -1)) as [->|Hp1].
      + apply (Hwhole FNone (-1) General false a); [intros; by apply (shortest_few I F HIF m Hm)|].
        intros out sp sg Hsp Ha. unfold float_body, parse_float_type_spec, set_fs_sign, set_fs_precision, set_fs_binary32.
        cbn [fs_format fs_precision fs_sign fs_upper fs_locale fs_binary32 fs_showpoint]. rewrite Hsp, Ha, orb_false_r.
        rewrite !decide_False by (done || (intros [? ?]; done)). rewrite decide_True by (by right). cbn [bind]. by destruct (carrier_bits I =? 32).
      + apply (Hwhole FNone (Z.max 1 p) General false a); [intros; apply (rounded_few I F HIF m Hm); [done|lia]|].
        intros out sp sg Hsp Ha. unfold float_body, parse_float_type_spec, set_fs_sign, set_fs_precision, set_fs_binary32.
        cbn [fs_format fs_precision fs_sign fs_upper fs_locale fs_binary32 fs_showpoint]. rewrite Hsp, Ha, orb_false_r.
        rewrite !(decide_False (P := General = _)) by done. rewrite (decide_True (P := 0 <= p \/ _)) by (by right).
        destruct (decide (General <> Fixed /\ p = 0)) as [[_ ->]|H0]; cbn [bind]; [by destruct (carrier_bits I =? 32)|].
        assert (p <> 0) by (intros ->; by apply H0). rewrite Z.max_r by lia. by destruct (carrier_bits I =? 32).
    - set (q := given p). assert (Hq : 0 <= q) by (unfold q, given; case_decide; lia).
      apply (Hwhole (FGeneral u) (Z.max 1 q) General u a); [intros; apply (rounded_few I F HIF m Hm); [done|lia]|].
      intros out sp sg Hsp Ha. unfold float_body, parse_float_type_spec, set_fs_sign, set_fs_precision, set_fs_binary32.
      cbn [fs_format fs_precision fs_sign fs_upper fs_locale fs_binary32 fs_showpoint]. rewrite Hsp, Ha, orb_false_r.
      rewrite !(decide_False (P := General = _)) by done.
      replace (if decide (0 <= p \/ FGeneral u = FNone) then p else 6) with q
        by (unfold q, given; destruct (decide (0 <= p)); [rewrite decide_True by (by left)|rewrite decide_False by (intros [|]; done)]; done).
      destruct (decide (General <> Fixed /\ q = 0)) as [[_ ->]|H0]; cbn [bind]; [by destruct (carrier_bits I =? 32)|].
      assert (q <> 0) by (intros ?; by apply H0). rewrite Z.max_r by lia. by destruct (carrier_bits I =? 32).
    - cbn [refuses] in Hno. set (q := given p). assert (Hq : 0 <= q) by (unfold q, given; case_decide; lia).
      assert (Hqm : q <> max_int) by (unfold q, given; case_decide; [done|unfold max_int; lia]).
      apply (Hwhole (FExp u) (q + 1) Exp u (a || negb (p =? 0))); [intros; apply (rounded_few I F HIF m Hm); [done|lia]|].
      intros out sp sg Hsp Ha. unfold float_body, parse_float_type_spec, set_fs_sign, set_fs_precision, set_fs_binary32.
      cbn [fs_format fs_precision fs_sign fs_upper fs_locale fs_binary32 fs_showpoint]. rewrite Hsp, Ha.
      rewrite (decide_False (P := Exp = FloatLayout.Hex)) by done. rewrite (decide_True (P := Exp = Exp)) by done.
      replace (if decide (0 <= p \/ FExp u = FNone) then p else 6) with q
        by (unfold q, given; destruct (decide (0 <= p)); [rewrite decide_True by (by left)|rewrite decide_False by (intros [|]; done)]; done).
      rewrite decide_False by done. cbn [bind]. by destruct (carrier_bits I =? 32).
    - cbn [refuses] in Hno. set (q := given p) in *. assert (Hq : 0 <= q) by (unfold q, given; case_decide; lia).
      apply (Hwhole (FFixed u) q Fixed u (a || negb (p =? 0))).
      { intros sg. destruct (fixed_few I F HIF m Hm q sg u (a || negb (p =? 0)) Hq) as [[H _]|[_ H]]; done. }
      intros out sp sg Hsp Ha. unfold float_body, parse_float_type_spec, set_fs_sign, set_fs_precision, set_fs_binary32.
      cbn [fs_format fs_precision fs_sign fs_upper fs_locale fs_binary32 fs_showpoint]. rewrite Hsp, Ha.
      rewrite !(decide_False (P := Fixed = _)) by done. rewrite (decide_False (P := Fixed <> Fixed /\ _)) by (intros [? _]; done).
      replace (if decide (0 <= p \/ FFixed u = FNone) then p else 6) with q
        by (unfold q, given; destruct (decide (0 <= p)); [rewrite decide_True by (by left)|rewrite decide_False by (intros [|]; done)]; done).
      cbn [bind]. by destruct (carrier_bits I =? 32).
  Qed.
End local.

(** ** With it *)
Lemma group_none E ip : group_text (float_grouping E false) ip = digit_text ip.
Proof. unfold group_text, float_grouping. cbn [sep]. apply interleave_no_sep. Qed.
Lemma repoint_same rest : repoint 46 rest = rest.
Proof. destruct rest as [|[|[]|] r]; try done. cbn. repeat (match goal with |- context[match ?x with _ => _ end] => destruct x end; try done). Qed.
Lemma localized_ok E pt ip rest : env_ok E -> all_digits ip -> ip <> [] -> no_digit rest ->
  localized_text (Locale (sep E) (grouping E)) pt (digit_text ip ++ rest) (group_text (float_grouping E true) ip ++ repoint pt rest).
Proof.
  intros HE Hip Hne Hr. exists ip, rest, (group_text E ip). split_and!; [done|done|done| |done]. cbn [l_sep l_groups]. unfold group_text.
  rewrite <- (digit_text_length ip). assert (Hne' : digit_text ip <> []) by (by destruct ip).
  destruct (sep E) as [|c cs] eqn:Hs; [rewrite interleave_no_sep; by apply grouped_empty_sep|]. rewrite <- Hs. apply first_ends_grouped; [done|by rewrite Hs].
Qed.

(** A field with nothing but the letter and #. *)
Definition bare (f : field) : field := Field [] None None (f_alternate f) false NoCount NoCount false (f_type f).
Lemma write_local E pt I F br pr f w p : kind_of I F -> env_ok E -> (length (sep E) <= 1)%nat -> pt <> 0 -> 0 <= br < 2 ^ carrier_bits I ->
  let m := br mod 2 ^ (carrier_bits I - 1) in
  m < (emax F - emin F + 2) * 2 ^ (prec F - 1) -> 0 <= w < 2 ^ 31 -> -1 <= p <= max_int -> ~ refuses F m pr p ->
  let neg := 2 ^ (carrier_bits I - 1) <=? br in
  let loc := f_local f && match pr with FHex _ => false | _ => true end in
  exists t t', (if loc then localized_text (Locale (sep E) (grouping E)) pt t t' else t' = t) /\
    (forall out wr pc, write_float_specs E pt I out br pr (specs_of (bare f) 0 p wr pc) = Ok (out ++ number_in_field (bare f) 0 neg t)) /\
    (forall out wr pc, write_float_specs E pt I out br pr (specs_of f w p wr pc) = Ok (out ++ number_in_field f w neg t')).
Proof.
  intros HIF HE Hsep Hpt Hbr m Hfin Hw Hp Hno neg loc.
  assert (Hm : 0 <= m < (emax F - emin F + 2) * 2 ^ (prec F - 1)).
  { split; [|done]. apply Z.mod_pos_bound. destruct HIF as [[-> _]|[-> _]]; done. }
  assert (Hpr : (exists u, pr = FHex u) \/ (loc = f_local f /\ forall u, pr <> FHex u)).
  { unfold loc. destruct pr; [right..|left]; eauto; (split; [by rewrite andb_true_r|done]). }
  destruct Hpr as [[u ->]|[-> Hnh]].
  - unfold loc. rewrite andb_false_r. destruct (hex_body E pt I F m u (bare f) p HIF Hm) as (q & n & x & text & _ & _ & Hrun).
    exists text, text. split; [done|].
    assert (Hany : forall f', f_alternate f' = f_alternate f -> forall out sp sg, local_specs f' p sp ->
      float_body E pt I out m (FHex u) sp (set_fs_sign (parse_float_type_spec (FHex u) sp) sg) = Ok (out ++ float_in sp (sign_chars sg ++ text))).
    { intros f' Hf' out sp sg (H1 & H2 & H3 & _).
      set (sp' := Specs (width sp) (precision sp) (typ sp) (al sp) (sgn sp) (alt sp) false (fill sp) (width_ref sp) (precision_ref sp)).
      assert (Hsp' : body_specs (bare f) p sp') by (unfold body_specs; cbn [sp' width precision alt localized bare f_alternate]; split_and!; try done; congruence || lia).
      exact (Hrun out sp' sg Hsp'). }
    split; intros out wr pc; apply (frame_local E pt I F); try done; intros; by eapply Hany.
  - destruct (body_local E pt I F HIF HE Hsep Hpt m Hm pr p (f_alternate f) Hp Hnh Hno) as (ip & rest & Hip & Hne & Hr & Hb).
    exists (digit_text ip ++ rest), (if f_local f then group_text (float_grouping E true) ip ++ repoint pt rest else digit_text ip ++ rest).
    split; [destruct (f_local f); [by apply localized_ok|done]|].
    split; intros out wr pc; apply (frame_local E pt I F); try done; intros out' sp sg (H1 & H2 & H3 & H4); (etransitivity; [exact (Hb out' sp sg H1 H2 H3)|]); rewrite H4.
    + cbn [f_local bare]. by rewrite group_none, repoint_same.
    + destruct (f_local f); [done|]. by rewrite group_none, repoint_same.
Qed.
