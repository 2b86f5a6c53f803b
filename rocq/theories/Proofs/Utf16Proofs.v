(** The converters between UTF-8 and UTF-16 or UTF-32. *)
From Verif Require Import Base.Cpp Model.Utf8 Model.Utf16 Spec.Utf8Spec Spec.Utf16Spec Proofs.Utf8Decode Proofs.Utf8Proofs.
Set Default Proof Using "Type".
Local Open Scope Z_scope.
Ltac Zify.zify_post_hook ::= idtac.

(** ** UTF-8 to UTF-16 *)
Definition widen (cp : Z) (_ _ : nat) (buffer : list Z) : res (bool * list Z) :=
  if decide (cp = invalid_code_point) then Throw
  else if cp <=? 65535 then Ok (true, buffer ++ [cp])
  else let cp := cp - 65536 in Ok (true, buffer ++ [55296 + Z.shiftr cp 10] ++ [56320 + Z.land cp 1023]).
Lemma widen_scalar cp p n buffer : scalar_value cp -> widen cp p n buffer = Ok (true, buffer ++ utf16 cp).
Proof.
  intros [Hcp _]. unfold widen. rewrite decide_False by (unfold invalid_code_point; lia). unfold utf16.
  destruct (Z.leb_spec cp 65535).
  - by rewrite decide_True by lia.
  - rewrite decide_False by lia. rewrite Z.shiftr_div_pow2 by lia. change 1023 with (Z.ones 10). rewrite Z.land_ones by lia. done.
Qed.
Lemma run_widen cps p buffer : Forall scalar_value cps ->
  run widen ((fun cp => (Some cp, encode cp)) <$> cps) p buffer = Ok (buffer ++ text16 cps).
Proof.
  intros H. revert p buffer. induction H as [|cp cps Hcp H IH]; intros p buffer.
  - cbn. by rewrite app_nil_r.
  - cbn -[widen]. rewrite widen_scalar by done. cbn [bind]. rewrite IH. by rewrite <- app_assoc.
Qed.
Lemma run_widen_invalid ps p buffer : Forall (fun q => forall cp, q.1 = Some cp -> scalar_value cp) ps -> Exists (fun q => q.1 = None) ps ->
  run widen ps p buffer = Throw.
Proof.
  intros Hs. revert p buffer. induction Hs as [|[c bs] ps Hc Hs IH]; intros p buffer He; [by apply Exists_nil in He|].
  destruct c as [cp|]; cbn -[widen].
  - rewrite widen_scalar by by apply Hc. cbn [bind]. apply IH. by inversion He.
  - done.
Qed.
Lemma pieces_text8 cps : Forall scalar_value cps -> pieces (text8 cps) ((fun cp => (Some cp, encode cp)) <$> cps).
Proof. induction 1 as [|cp cps Hcp H IH]; [constructor|]. cbn. by apply pieces_valid. Qed.
Lemma text8_bytes cps : Forall scalar_value cps -> Forall is_byte (text8 cps).
Proof. induction 1 as [|cp cps Hcp H IH]; [constructor|]. cbn. apply Forall_app. split; [by apply encode_byte|done]. Qed.
Lemma utf8_to_utf16_valid cps : Forall scalar_value cps -> utf8_to_utf16 (text8 cps) = Ok (text16 cps ++ [0]).
Proof.
  intros H. unfold utf8_to_utf16. change (fun cp _ _ buffer => _) with widen.
  rewrite (for_each_ok _ _ _ _ (text8_bytes cps H) (pieces_text8 cps H)), run_widen by done. done.
Qed.
Lemma pieces_cases s ps : pieces s ps ->
  Forall (fun q => forall cp, q.1 = Some cp -> scalar_value cp) ps /\
  ((exists cps, Forall scalar_value cps /\ s = text8 cps) \/ Exists (fun q => q.1 = None) ps).
Proof.
  induction 1 as [|cp s ps Hsc H [IH1 IH2]|b s ps Hno H [IH1 IH2]].
  - split; [constructor|]. left. by exists [].
  - split; [constructor; [|done]; by intros ? [= <-]|]. destruct IH2 as [(cps & Hcps & ->)|IH2].
    + left. exists (cp :: cps). split; [by constructor|done].
    + right. by apply Exists_cons_tl.
  - split; [by constructor|]. right. by apply Exists_cons_hd.
Qed.
Lemma utf8_to_utf16_invalid s : Forall is_byte s -> (forall cps, Forall scalar_value cps -> s <> text8 cps) -> utf8_to_utf16 s = Throw.
Proof.
  intros Hby Hno. destruct (pieces_exist s Hby) as [ps Hps]. destruct (pieces_cases s ps Hps) as [Hs [(cps & Hc & He)|He]].
  - by destruct (Hno cps Hc).
  - unfold utf8_to_utf16. change (fun cp _ _ buffer => _) with widen. rewrite (for_each_ok _ s ps) by done.
    by rewrite run_widen_invalid.
Qed.
Lemma take_last (s : list Z) x : take (length (s ++ [x]) - 1) (s ++ [x]) = s.
Proof. rewrite app_length. cbn. replace (length s + 1 - 1)%nat with (length s) by lia. apply take_app. Qed.

(** ** UTF-16 and UTF-32 to UTF-8 *)
Lemma lor_low a b k : 0 <= k -> 0 <= b < 2 ^ k -> Z.lor (a * 2 ^ k) b = a * 2 ^ k + b.
Proof.
  intros Hk Hb. assert (Hl : Z.land (a * 2 ^ k) b = 0).
  { apply Z.bits_inj'. intros n Hn. rewrite Z.land_spec, Z.bits_0. destruct (Z.lt_ge_cases n k).
    - by rewrite Z.mul_pow2_bits_low.
    - rewrite <- (Z.mod_small b (2 ^ k)) by done. rewrite Z.mod_pow2_bits_high by lia. apply andb_false_r. }
  rewrite <- Z.lxor_lor by done. by rewrite Z.add_nocarry_lxor.
Qed.
Lemma land_high c : 0 <= c < 65536 -> Z.land c 64512 = c / 1024 * 1024.
Proof.
  intros Hc. change 64512 with (Z.shiftl 63 10). change (c / 1024 * 1024) with (c / 2 ^ 10 * 2 ^ 10).
  rewrite <- Z.shiftl_mul_pow2, <- Z.shiftr_div_pow2 by lia. apply Z.bits_inj'. intros n Hn.
  rewrite Z.land_spec, !Z.shiftl_spec by lia. destruct (Z.lt_ge_cases n 10).
  - rewrite !(Z.testbit_neg_r _ (n - 10)) by lia. apply andb_false_r.
  - rewrite Z.shiftr_spec by lia. replace (n - 10 + 10) with n by lia. destruct (Z.lt_ge_cases n 16).
    + change 63 with (Z.ones 6). rewrite Z.ones_spec_low by lia. apply andb_true_r.
    + rewrite <- (Z.mod_small c (2 ^ 16)) by done. by rewrite Z.mod_pow2_bits_high by lia.
Qed.
Lemma low_bits c k : 0 <= k -> Z.land c (Z.ones k) = c mod 2 ^ k.
Proof. intros. by apply Z.land_ones. Qed.

Lemma convert_scalar two policy buf cp rest : scalar_value cp -> (two = true -> cp < 65536) ->
  convert two policy buf (cp :: rest) = convert two policy (buf ++ encode cp) rest.
Proof.
  intros [Hcp Hns] Htwo. cbn [convert]. rewrite (Z.mod_small cp) by lia.
  replace (two && (55296 <=? cp) && (cp <=? 57343)) with false.
  2:{ destruct two, (Z.leb_spec 55296 cp), (Z.leb_spec cp 57343); cbn; try done. lia. }
  unfold encode. destruct (Z.ltb_spec cp 128); [by rewrite decide_True by lia|]. rewrite decide_False by lia.
  change 63 with (Z.ones 6). change 4095 with (Z.ones 12). change 262143 with (Z.ones 18).
  rewrite !low_bits, !Z.shiftr_div_pow2 by lia.
  change (2 ^ 6) with 64. change (2 ^ 12) with 4096. change (2 ^ 18) with 262144.
  assert (H0 : Z.lor 128 (cp mod 64) = 128 + cp mod 64) by (apply (lor_low 2 _ 6); [lia|apply Z.mod_pos_bound; lia]).
  assert (Hm : cp mod 4096 / 64 = cp / 64 mod 64) by (clear; Z.div_mod_to_equations; lia).
  assert (Hm2 : cp mod 262144 / 4096 = cp / 4096 mod 64) by (clear; Z.div_mod_to_equations; lia).
  rewrite Hm, Hm2, H0.
  assert (H1 : Z.lor 128 (cp / 64 mod 64) = 128 + cp / 64 mod 64) by (apply (lor_low 2 _ 6); [lia|apply Z.mod_pos_bound; lia]).
  assert (H2 : Z.lor 128 (cp / 4096 mod 64) = 128 + cp / 4096 mod 64) by (apply (lor_low 2 _ 6); [lia|apply Z.mod_pos_bound; lia]).
  rewrite H1, H2.
  destruct (Z.ltb_spec cp 2048).
  { rewrite decide_True by lia.
    assert (Hlead : Z.lor 192 (cp / 64) = 192 + cp / 64) by (apply (lor_low 6 _ 5); [lia|Z.div_mod_to_equations; lia]). by rewrite Hlead. }
  rewrite decide_False by lia.
  destruct (Z.lt_ge_cases cp 65536).
  - rewrite decide_True by lia. replace (_ || _) with true.
    2:{ destruct (Z.leb_spec 2048 cp), (Z.leb_spec cp 55295), (Z.leb_spec 57344 cp), (Z.leb_spec cp 65535); cbn; try done; lia. }
    assert (Hlead : Z.lor 224 (cp / 4096) = 224 + cp / 4096) by (apply (lor_low 14 _ 4); [lia|Z.div_mod_to_equations; lia]). by rewrite Hlead.
  - rewrite decide_False by lia. replace (_ || _) with false.
    2:{ destruct (Z.leb_spec 2048 cp), (Z.leb_spec cp 55295), (Z.leb_spec 57344 cp), (Z.leb_spec cp 65535); cbn; try done; lia. }
    rewrite (proj2 (Z.leb_le 65536 cp)), (proj2 (Z.leb_le cp 1114111)) by lia. cbn [andb].
    assert (Hlead : Z.lor 240 (cp / 262144) = 240 + cp / 262144) by (apply (lor_low 30 _ 3); [lia|Z.div_mod_to_equations; lia]). by rewrite Hlead.
Qed.

(** Four bytes: a unit is a code point, or the end. *)
Lemma convert_no_scalar policy buf c rest : 0 <= c < 2 ^ 32 -> ~ scalar_value c -> convert false policy buf (c :: rest) = (false, buf).
Proof.
  intros Hc Hns. assert (Hr : 55296 <= c <= 57343 \/ 1114111 < c) by (unfold scalar_value in Hns; lia).
  cbn [convert]. rewrite Z.mod_small by done. cbn [andb].
  rewrite (proj2 (Z.ltb_ge c 128)), (proj2 (Z.ltb_ge c 2048)) by lia. replace (_ || _) with false.
  2:{ destruct (Z.leb_spec 2048 c), (Z.leb_spec c 55295), (Z.leb_spec 57344 c), (Z.leb_spec c 65535); cbn; try done; lia. }
  replace (_ && _) with false; [done|]. destruct (Z.leb_spec 65536 c), (Z.leb_spec c 1114111); cbn; try done; lia.
Qed.
Lemma convert_32 policy buf cps : Forall scalar_value cps -> convert false policy buf cps = (true, buf ++ text8 cps).
Proof.
  intros H. revert buf. induction H as [|cp cps Hcp H IH]; intros buf.
  - cbn. by rewrite app_nil_r.
  - rewrite convert_scalar by done. rewrite IH. cbn. by rewrite <- app_assoc.
Qed.
Lemma convert_32_fails policy buf cps c rest : Forall scalar_value cps -> 0 <= c < 2 ^ 32 -> ~ scalar_value c ->
  convert false policy buf (cps ++ c :: rest) = (false, buf ++ text8 cps).
Proof.
  intros H Hc Hns. revert buf. induction H as [|cp cps Hcp H IH]; intros buf.
  - rewrite app_nil_l, convert_no_scalar by done. cbn. by rewrite app_nil_r.
  - rewrite <- app_comm_cons, convert_scalar by done. rewrite IH. cbn. by rewrite <- app_assoc.
Qed.
Global Instance scalar_value_dec cp : Decision (scalar_value cp).
Proof. unfold scalar_value. apply _. Defined.
Lemma scalar_prefix s : Forall scalar_value s \/ exists cps c rest, s = cps ++ c :: rest /\ Forall scalar_value cps /\ ~ scalar_value c.
Proof.
  induction s as [|x s IH]; [left; constructor|]. destruct (decide (scalar_value x)) as [Hx|Hx].
  - destruct IH as [IH|(cps & c & rest & -> & Hc & Hn)]; [left; by constructor|].
    right. exists (x :: cps), c, rest. split_and!; [done|by constructor|done].
  - right. exists [], x, s. split_and!; [done|constructor|done].
Qed.

(** Two bytes. *)
Lemma pair_units cp : scalar_value cp -> 65536 <= cp -> exists h l, utf16 cp = [h; l] /\ 55296 <= h <= 56319 /\ 56320 <= l <= 57343.
Proof.
  intros [Hcp _] Hge. unfold utf16. rewrite decide_False by lia. eexists _, _. split; [done|].
  assert (0 <= (cp - 0x10000) / 1024 <= 1023 /\ 0 <= (cp - 0x10000) mod 1024 <= 1023) by (Z.div_mod_to_equations; lia). lia.
Qed.
Lemma pair_cp h l : 55296 <= h <= 56319 -> 56320 <= l <= 57343 -> exists cp, scalar_value cp /\ 65536 <= cp /\ utf16 cp = [h; l].
Proof.
  intros Hh Hl. exists (65536 + (h - 55296) * 1024 + (l - 56320)). split; [unfold scalar_value; lia|]. split; [lia|].
  unfold utf16. rewrite decide_False by lia.
  replace (65536 + (h - 55296) * 1024 + (l - 56320) - 0x10000) with (l - 56320 + (h - 55296) * 1024) by lia.
  rewrite Z.div_add, Z.mod_add, Z.div_small, Z.mod_small by lia. f_equal; [lia|f_equal; lia].
Qed.
Lemma is_high c : 55296 <= c <= 57343 -> (Z.land c 64512 =? 55296) = (c <=? 56319).
Proof.
  intros. rewrite land_high by lia. destruct (Z.leb_spec c 56319); [apply Z.eqb_eq|apply Z.eqb_neq]; Z.div_mod_to_equations; lia.
Qed.
Lemma is_low y : is_unit y -> (Z.land y 64512 =? 56320) = (56320 <=? y) && (y <=? 57343).
Proof.
  unfold is_unit. intros. rewrite land_high by lia.
  destruct (Z.leb_spec 56320 y), (Z.leb_spec y 57343); cbn; [apply Z.eqb_eq|apply Z.eqb_neq..]; Z.div_mod_to_equations; lia.
Qed.
Lemma convert_pair policy buf h l rest : 55296 <= h <= 56319 -> 56320 <= l <= 57343 ->
  convert true policy buf (h :: l :: rest) = convert true policy buf rest.
Proof.
  intros Hh Hl. cbn [convert]. rewrite (Z.mod_small h) by lia.
  rewrite (proj2 (Z.leb_le 55296 h)), (proj2 (Z.leb_le h 57343)) by lia. cbn [andb].
  rewrite is_high, is_low by (unfold is_unit; lia).
  by rewrite (proj2 (Z.leb_le h 56319)), (proj2 (Z.leb_le 56320 l)), (proj2 (Z.leb_le l 57343)) by lia.
Qed.
Lemma convert_lone policy buf u rest : is_unit u -> Forall is_unit rest -> (forall cp t, scalar_value cp -> u :: rest <> utf16 cp ++ t) ->
  convert true policy buf (u :: rest) =
  match policy with OnErrorAbort => (false, buf) | OnErrorReplace => convert true policy (buf ++ [239; 191; 189]) rest end.
Proof.
  unfold is_unit. intros Hu Hrest Hno.
  assert (Hs : 55296 <= u <= 57343).
  { destruct (decide (55296 <= u <= 57343)); [done|]. destruct (Hno u rest); [unfold scalar_value; lia|].
    unfold utf16. by rewrite decide_True by lia. }
  cbn [convert]. rewrite (Z.mod_small u) by lia. rewrite (proj2 (Z.leb_le 55296 u)), (proj2 (Z.leb_le u 57343)) by lia. cbn [andb].
  destruct rest as [|y rest]; [done|]. rewrite is_high, is_low by (try lia; by inversion Hrest).
  replace (_ || _) with true; [done|].
  destruct (Z.leb_spec u 56319), (Z.leb_spec 56320 y), (Z.leb_spec y 57343); cbn; try done. exfalso.
  destruct (pair_cp u y) as (cp & Hcp & _ & He); [lia..|]. destruct (Hno cp rest Hcp). by rewrite He.
Qed.

(** What is written for a piece: nothing for a pair. *)
Definition shown (c : option Z) : list Z :=
  match c with Some cp => if decide (cp < 0x10000) then encode cp else [] | None => [0xEF; 0xBF; 0xBD] end.
Lemma convert_valid policy buf cp rest : scalar_value cp ->
  convert true policy buf (utf16 cp ++ rest) = convert true policy (buf ++ shown (Some cp)) rest.
Proof.
  intros Hcp. cbn [shown]. destruct (decide (cp < 0x10000)).
  - unfold utf16. rewrite decide_True by done. cbn [app]. by apply convert_scalar.
  - destruct (pair_units cp) as (h & l & He & Hh & Hl); [done|lia|]. rewrite He. cbn [app]. by rewrite convert_pair, app_nil_r.
Qed.
Lemma convert_replace buf s ps : Forall is_unit s -> pieces16 s ps ->
  convert true OnErrorReplace buf s = (true, buf ++ concat (shown <$> ps)).
Proof.
  intros Hu H. revert Hu buf. induction H as [|cp s ps Hcp H IH|u s ps Hno H IH]; intros Hu buf.
  - cbn. by rewrite app_nil_r.
  - apply Forall_app in Hu as [_ Hu]. rewrite convert_valid by done. rewrite IH by done. cbn -[shown]. by rewrite <- app_assoc.
  - apply Forall_cons in Hu as [Hx Hu]. rewrite convert_lone by done. rewrite IH by done. cbn -[shown]. by rewrite <- app_assoc.
Qed.
Lemma convert_abort buf s ps : Forall is_unit s -> pieces16 s ps ->
  (convert true OnErrorAbort buf s).1 = true <-> Forall (fun c => c <> None) ps.
Proof.
  intros Hu H. revert Hu buf. induction H as [|cp s ps Hcp H IH|u s ps Hno H IH]; intros Hu buf.
  - done.
  - apply Forall_app in Hu as [_ Hu]. rewrite convert_valid by done. rewrite IH by done. rewrite Forall_cons. naive_solver.
  - apply Forall_cons in Hu as [Hx Hu]. rewrite convert_lone by done. rewrite Forall_cons. naive_solver.
Qed.
Lemma convert_16 policy buf cps : Forall scalar_value cps ->
  convert true policy buf (text16 cps) = (true, buf ++ text8 (filter (fun cp => cp < 0x10000) cps)).
Proof.
  intros H. revert buf. induction H as [|cp cps Hcp H IH]; intros buf.
  - cbn. by rewrite app_nil_r.
  - change (text16 (cp :: cps)) with (utf16 cp ++ text16 cps). rewrite convert_valid by done. rewrite IH. rewrite filter_cons.
    cbn [shown]. destruct (decide (cp < 0x10000)); [by rewrite <- app_assoc|by rewrite app_nil_r].
Qed.
Lemma starts_dec u s : is_unit u -> Forall is_unit s ->
  (exists cp t, scalar_value cp /\ u :: s = utf16 cp ++ t) \/ (forall cp t, scalar_value cp -> u :: s <> utf16 cp ++ t).
Proof.
  unfold is_unit. intros Hu Hs. destruct (decide (55296 <= u <= 57343)) as [Hr|Hr].
  2:{ left. exists u, s. split; [unfold scalar_value; lia|]. unfold utf16. by rewrite decide_True by lia. }
  assert (Hno : forall cp t, scalar_value cp -> u :: s = utf16 cp ++ t ->
    exists y rest, s = y :: rest /\ 55296 <= u <= 56319 /\ 56320 <= y <= 57343).
  { intros cp t Hcp He. destruct (decide (cp < 65536)).
    - unfold utf16 in He. rewrite decide_True in He by done. cbn in He. injection He as -> ->. unfold scalar_value in Hcp. lia.
    - destruct (pair_units cp Hcp) as (h & l & Hp & Hh & Hl); [lia|]. rewrite Hp in He. cbn in He. injection He as -> ->. eauto. }
  destruct s as [|y rest].
  { right. intros cp t Hcp He. destruct (Hno cp t Hcp He) as (? & ? & [=] & _). }
  destruct (decide (u <= 56319 /\ 56320 <= y <= 57343)) as [Hp|Hp].
  - left. destruct (pair_cp u y) as (cp & Hcp & _ & He); [lia..|]. exists cp, rest. split; [done|]. by rewrite He.
  - right. intros cp t Hcp He. destruct (Hno cp t Hcp He) as (? & ? & [= <- <-] & ? & ?). lia.
Qed.
Lemma utf16_length cp : (1 <= length (utf16 cp))%nat.
Proof. unfold utf16. case_decide; cbn; lia. Qed.
Lemma pieces16_exist s : Forall is_unit s -> exists ps, pieces16 s ps.
Proof.
  remember (length s) as n eqn:Hn. revert s Hn. induction n as [n IH] using lt_wf_ind. intros s -> Hu.
  destruct s as [|u s]; [exists []; constructor|]. pose proof Hu as Hu'. apply Forall_cons in Hu as [Hx Hu].
  destruct (starts_dec u s Hx Hu) as [(cp & t & Hcp & He)|Hno].
  - rewrite He in *. apply Forall_app in Hu' as [_ Ht]. pose proof (utf16_length cp).
    destruct (IH (length t)) with (s := t) as [ps Hps]; [rewrite app_length; lia|done|done|]. exists (Some cp :: ps). by constructor.
  - destruct (IH (length s)) with (s := s) as [ps Hps]; [cbn; lia|done|done|]. exists (None :: ps). by constructor.
Qed.
Lemma utf16_inj cp cp' t t' : scalar_value cp -> scalar_value cp' -> utf16 cp ++ t = utf16 cp' ++ t' -> cp = cp' /\ t = t'.
Proof.
  unfold scalar_value. intros [H1 H2] [H1' H2'] He. unfold utf16 in He.
  repeat case_decide; cbn in He; injection He; intros; subst; try (split; [Z.div_mod_to_equations; lia|done]);
    exfalso; Z.div_mod_to_equations; lia.
Qed.
Lemma pieces16_functional s ps ps' : pieces16 s ps -> pieces16 s ps' -> ps = ps'.
Proof.
  intros H. revert ps'. induction H as [|cp s ps Hsc H IH|b s ps Hno H IH]; intros ps' H'.
  - inversion H' as [|cp' s' ps'' Hsc' Hp' Heq|]; [done|]. pose proof (utf16_length cp') as Hl.
    destruct (utf16 cp'); [cbn in Hl; lia|done].
  - inversion H' as [Heq|cp' s' ps'' Hsc' Hp' Heq|u s' ps'' Hno' Hp' Heq].
    + pose proof (utf16_length cp) as Hl. destruct (utf16 cp); [cbn in Hl; lia|done].
    + destruct (utf16_inj cp' cp s' s) as [-> ->]; [done..|]. f_equal. by apply IH.
    + by destruct (Hno' cp s Hsc).
  - inversion H' as [|cp' s' ps'' Hsc' Hp' Heq|u s' ps'' Hno' Hp' Heq].
    + by destruct (Hno cp' s' Hsc').
    + f_equal. by apply IH.
Qed.
Lemma pieces16_text cps : Forall scalar_value cps -> pieces16 (text16 cps) (Some <$> cps).
Proof. induction 1 as [|cp cps Hcp H IH]; [constructor|]. cbn. by apply pieces16_valid. Qed.
Lemma pieces16_all s ps : pieces16 s ps -> Forall (fun c => c <> None) ps -> exists cps, Forall scalar_value cps /\ s = text16 cps.
Proof.
  induction 1 as [|cp s ps Hsc H IH|b s ps Hno H IH]; intros Ha.
  - by exists [].
  - apply Forall_cons in Ha as [_ Ha]. destruct (IH Ha) as (cps & Hc & ->). exists (cp :: cps). split; [by constructor|done].
  - apply Forall_cons in Ha as [Ha _]. done.
Qed.
Lemma filter_all (P : Z -> Prop) `{!forall x, Decision (P x)} (l : list Z) : Forall P l -> filter P l = l.
Proof. induction 1 as [|x l Hx Hl IH]; [done|]. rewrite filter_cons_True by done. by rewrite IH. Qed.
Lemma fmap_inj_Some (l' l : list Z) :
  (fun cp => (Some cp, encode cp)) <$> l = (fun cp => (Some cp, encode cp)) <$> l' -> l = l'.
Proof. revert l'. induction l as [|x l IH]; intros [|y l']; cbn; try done. intros [= -> _ He]. f_equal. by apply IH. Qed.
Lemma convert_16_fails buf cps u rest : Forall scalar_value cps -> is_unit u -> Forall is_unit rest ->
  (forall cp t, scalar_value cp -> u :: rest <> utf16 cp ++ t) ->
  convert true OnErrorAbort buf (text16 cps ++ u :: rest) = (false, buf ++ text8 (filter (fun cp => cp < 0x10000) cps)).
Proof.
  intros H Hu Hr Hno. revert buf. induction H as [|cp cps Hcp H IH]; intros buf.
  - change (text16 [] ++ u :: rest) with (u :: rest). rewrite convert_lone by done. cbn. by rewrite app_nil_r.
  - change (text16 (cp :: cps)) with (utf16 cp ++ text16 cps). rewrite <- app_assoc, convert_valid by done. rewrite IH, filter_cons.
    cbn [shown]. destruct (decide (cp < 0x10000)); [by rewrite <- app_assoc|by rewrite app_nil_r].
Qed.
