(** C171 to C174: converting between UTF-8 and UTF-16 or UTF-32. *)
From Verif Require Import Base.Cpp Model.Utf16 Spec.Utf8Spec Spec.Utf16Spec Proofs.Utf8Decode Proofs.Utf16Proofs.
Set Default Proof Using "Type".
Local Open Scope Z_scope.

(** The UTF-8 of any code points becomes their UTF-16, followed by a 0 that str leaves out. *)
Theorem C171_valid cps : Forall scalar_value cps ->
  exists buffer, utf8_to_utf16 (text8 cps) = Ok buffer /\ buffer = text16 cps ++ [0] /\ utf16_str buffer = text16 cps.
Proof. intros H. eexists. split; [by apply utf8_to_utf16_valid|]. split; [done|]. apply take_last. Qed.
Print Assumptions C171_valid.
(** Bytes throw exactly if they are not the UTF-8 of any code points. *)
Theorem C171_throws_iff s : Forall (fun b => 0 <= b <= 255) s ->
  utf8_to_utf16 s = Throw <-> ~ exists cps, Forall scalar_value cps /\ s = text8 cps.
Proof.
  intros Hs. split.
  - intros Ht (cps & Hc & ->). by rewrite utf8_to_utf16_valid in Ht.
  - intros Hno. apply utf8_to_utf16_invalid; [done|]. intros cps Hc He. apply Hno. eauto.
Qed.
Print Assumptions C171_throws_iff.
(** Different texts become different wide texts. *)
Theorem C171_tells_apart s s' : Forall (fun b => 0 <= b <= 255) s -> Forall (fun b => 0 <= b <= 255) s' ->
  utf8_to_utf16 s = utf8_to_utf16 s' -> utf8_to_utf16 s <> Throw -> s = s'.
Proof.
  intros Hs Hs' He Ht.
  destruct (Proofs.Utf8Proofs.pieces_exist s Hs) as [ps Hps]. destruct (pieces_cases s ps Hps) as [_ [(cps & Hc & ->)|Hn]].
  2:{ destruct Ht. apply C171_throws_iff; [done|]. intros (cps & Hc & ->).
      pose proof (Proofs.Utf8Proofs.pieces_functional _ _ _ Hps (pieces_text8 cps Hc)) as ->.
      apply Exists_exists in Hn as ([c bs] & Hin & Heq). apply elem_of_list_fmap in Hin as (? & [= -> ->] & _). done. }
  destruct (Proofs.Utf8Proofs.pieces_exist s' Hs') as [ps' Hps']. destruct (pieces_cases s' ps' Hps') as [_ [(cps' & Hc' & ->)|Hn]].
  2:{ destruct Ht. rewrite He. apply C171_throws_iff; [done|]. intros (cps' & Hc' & ->).
      pose proof (Proofs.Utf8Proofs.pieces_functional _ _ _ Hps' (pieces_text8 cps' Hc')) as ->.
      apply Exists_exists in Hn as ([c bs] & Hin & Heq). apply elem_of_list_fmap in Hin as (? & [= -> ->] & _). done. }
  rewrite !utf8_to_utf16_valid in He by done. injection He as He. apply app_inj_tail in He as [He _].
  pose proof (pieces16_text cps Hc) as H1. rewrite He in H1.
  pose proof (pieces16_functional _ _ _ H1 (pieces16_text cps' Hc')) as Hf.
  apply (inj (fmap Some)) in Hf. by subst.
Qed.
Print Assumptions C171_tells_apart.
Example C171_example :
  utf8_to_utf16 [97; 195; 169; 226; 130; 172; 240; 159; 152; 128] = Ok [97; 233; 8364; 55357; 56832; 0] /\
  text8 [97; 233; 8364; 128512] = [97; 195; 169; 226; 130; 172; 240; 159; 152; 128] /\
  Forall scalar_value [97; 233; 8364; 128512] /\ utf8_to_utf16 [97; 195] = Throw /\ utf8_to_utf16 [] = Ok [0].
Proof. split; [reflexivity|]. split; [reflexivity|]. split; [repeat constructor; cbn; lia|]. by split. Qed.

(** Wide chars of four bytes: code points become their UTF-8, followed by a 0 that str leaves out. *)
Theorem C172_utf32 policy cps : Forall scalar_value cps ->
  exists buf, to_utf8 false policy cps = Ok buf /\ buf = text8 cps ++ [0] /\ utf8_str buf = text8 cps.
Proof. intros H. unfold to_utf8, convert_into. rewrite convert_32 by done. cbn [app]. eexists. split; [done|]. split; [done|]. apply take_last. Qed.
Print Assumptions C172_utf32.
(** Anything else throws, whether errors are to be replaced or not. *)
Theorem C172_utf32_throws_iff policy s : Forall (fun u => 0 <= u < 2 ^ 32) s ->
  to_utf8 false policy s = Throw <-> ~ Forall scalar_value s.
Proof.
  intros Hs. destruct (scalar_prefix s) as [H|(cps & c & rest & -> & Hc & Hn)]; unfold to_utf8, convert_into.
  - rewrite convert_32 by done. split; [done|]. intros Hno. by destruct Hno.
  - apply Forall_app in Hs as [_ Hs]. apply Forall_cons in Hs as [Hs _]. rewrite convert_32_fails by done.
    split; [|done]. intros _ Ha. apply Forall_app in Ha as [_ Ha]. by apply Forall_cons in Ha as [Ha _].
Qed.
Print Assumptions C172_utf32_throws_iff.
(** What is in the buffer when the conversion stops: the text before. *)
Theorem C172_utf32_stops policy buf cps c rest : Forall scalar_value cps -> 0 <= c < 2 ^ 32 -> ~ scalar_value c ->
  convert false policy buf (cps ++ c :: rest) = (false, buf ++ text8 cps).
Proof. apply convert_32_fails. Qed.
Print Assumptions C172_utf32_stops.
(** Wide chars of two bytes: what is UTF-16 of code points below 0x10000 becomes their UTF-8. Missing: all other code points. *)
Theorem C172_utf16_partial policy cps : Forall scalar_value cps -> Forall (fun cp => cp < 0x10000) cps ->
  exists buf, to_utf8 true policy (text16 cps) = Ok buf /\ buf = text8 cps ++ [0] /\ utf8_str buf = text8 cps.
Proof.
  intros H Hl. unfold to_utf8, convert_into. rewrite convert_16 by done. rewrite filter_all by done. cbn [app].
  eexists. split; [done|]. split; [done|]. apply take_last.
Qed.
Print Assumptions C172_utf16_partial.
(** Not so with a surrogate pair: it leaves no trace, under either policy, and no error either. *)
Theorem C172_utf16_refuted policy : ~ forall cps, Forall scalar_value cps -> to_utf8 true policy (text16 cps) = Ok (text8 cps ++ [0]).
Proof.
  intros H. specialize (H [128512]). destruct policy; vm_compute in H; (assert (Forall scalar_value [128512]) as Hs
    by (repeat constructor; cbn; lia)); by specialize (H Hs).
Qed.
Print Assumptions C172_utf16_refuted.
Theorem C172_pairs_dropped policy before cp after :
  Forall scalar_value before -> Forall scalar_value after -> scalar_value cp -> 0x10000 <= cp ->
  to_utf8 true policy (text16 (before ++ [cp] ++ after)) = to_utf8 true policy (text16 (before ++ after)).
Proof.
  intros Hb Ha Hcp Hge. unfold to_utf8, convert_into. rewrite !convert_16; [|by apply Forall_app|repeat (apply Forall_app; split); try done; by constructor].
  rewrite !filter_app, filter_cons_False by lia. done.
Qed.
Print Assumptions C172_pairs_dropped.
(** Units throw, where errors are not to be replaced, exactly if they are not the UTF-16 of any code points. *)
Theorem C172_utf16_throws_iff s : Forall (fun u => 0 <= u <= 0xFFFF) s ->
  to_utf8 true OnErrorAbort s = Throw <-> ~ exists cps, Forall scalar_value cps /\ s = text16 cps.
Proof.
  intros Hs. destruct (pieces16_exist s Hs) as [ps Hps]. pose proof (convert_abort [] s ps Hs Hps) as Ha. unfold to_utf8, convert_into.
  split.
  - intros Ht (cps & Hc & ->). by rewrite convert_16 in Ht.
  - intros Hno. destruct (convert true OnErrorAbort [] s) as [[] buf]; [|done]. destruct Hno.
    apply (pieces16_all s ps Hps). by apply Ha.
Qed.
Print Assumptions C172_utf16_throws_iff.
(** Where they are to be replaced nothing throws, and a unit that is no code point becomes the replacement character U+FFFD. *)
Theorem C172_replace s ps : Forall (fun u => 0 <= u <= 0xFFFF) s -> pieces16 s ps ->
  to_utf8 true OnErrorReplace s = Ok (text8 (omap (fun c =>
    match c with None => Some 0xFFFD | Some cp => if decide (cp < 0x10000) then Some cp else None end) ps) ++ [0]).
Proof.
  intros Hs Hps. unfold to_utf8, convert_into. rewrite (convert_replace _ s ps) by done. cbn [app]. do 2 f_equal.
  clear. induction ps as [|c ps IH]; [done|]. rewrite fmap_cons. cbn [concat]. rewrite IH.
  destruct c as [cp|]; cbn; [|done]. by destruct (decide (cp < 65536)).
Qed.
Print Assumptions C172_replace.
(** Any units are such pieces, in one way. *)
Theorem C172_pieces s : Forall (fun u => 0 <= u <= 0xFFFF) s -> exists! ps, pieces16 s ps.
Proof. intros Hs. destruct (pieces16_exist s Hs) as [ps H]. exists ps. split; [done|]. intros ps'. by apply pieces16_functional. Qed.
Print Assumptions C172_pieces.
Example C172_example :
  to_utf8 true OnErrorAbort [97; 8364] = Ok [97; 226; 130; 172; 0] /\ to_utf8 true OnErrorAbort [97; 55357; 56832; 98] = Ok [97; 98; 0] /\
  to_utf8 true OnErrorReplace [55357; 97] = Ok [239; 191; 189; 97; 0] /\ to_utf8 true OnErrorAbort [56832; 55357] = Throw /\
  to_utf8 false OnErrorReplace [97; 128512] = Ok [97; 240; 159; 152; 128; 0] /\ to_utf8 false OnErrorReplace [97; 55357] = Throw /\
  pieces16 (text16 [97; 128512]) [Some 97; Some 128512].
Proof. split_and!; try reflexivity. apply (pieces16_text [97; 128512]). repeat constructor; cbn; lia. Qed.

(** There and back: with wide chars of two bytes the text comes back exactly if its code points are below 0x10000; with four
    bytes the way back throws otherwise. *)
Theorem C173_two_bytes_iff policy cps : Forall scalar_value cps ->
  (let* w := utf8_to_utf16 (text8 cps) in to_utf8 true policy (utf16_str w)) = Ok (text8 cps ++ [0]) <->
  Forall (fun cp => cp < 0x10000) cps.
Proof.
  intros H. rewrite utf8_to_utf16_valid by done. cbn [bind]. unfold utf16_str. rewrite take_last. unfold to_utf8, convert_into.
  rewrite convert_16 by done. cbn [app]. split.
  - intros He. injection He as He. apply app_inj_tail in He as [He _].
    assert (Hf : Forall scalar_value (filter (fun cp => cp < 0x10000) cps)).
    { apply Forall_forall. intros cp Hin. apply elem_of_list_filter in Hin as [_ Hin]. by eapply Forall_forall in H. }
    pose proof (pieces_text8 _ Hf) as H1. rewrite He in H1.
    pose proof (Proofs.Utf8Proofs.pieces_functional _ _ _ H1 (pieces_text8 cps H)) as Hp.
    assert (Hq : filter (fun cp => cp < 0x10000) cps = cps).
    { apply (fmap_inj_Some cps _ Hp). }
    rewrite <- Hq. apply Forall_forall. intros cp Hin. by apply elem_of_list_filter in Hin as [Hin _].
  - intros Hl. by rewrite filter_all.
Qed.
Print Assumptions C173_two_bytes_iff.
Theorem C173_four_bytes_iff policy cps : Forall scalar_value cps ->
  (let* w := utf8_to_utf16 (text8 cps) in to_utf8 false policy (utf16_str w)) =
  if decide (Forall (fun cp => cp < 0x10000) cps) then Ok (text8 cps ++ [0]) else Throw.
Proof.
  intros H. rewrite utf8_to_utf16_valid by done. cbn [bind]. unfold utf16_str. rewrite take_last.
  assert (Hc : forall buf, convert false policy buf (text16 cps) =
    if decide (Forall (fun cp => cp < 0x10000) cps) then (true, buf ++ text8 cps)
    else (false, (convert false policy buf (text16 cps)).2)).
  { induction H as [|cp cps Hcp H IH]; intros buf.
    - rewrite decide_True by constructor. cbn. by rewrite app_nil_r.
    - change (text16 (cp :: cps)) with (utf16 cp ++ text16 cps). destruct (decide (cp < 0x10000)) as [Hl|Hl].
      + assert (He : utf16 cp = [cp]) by (unfold utf16; by rewrite decide_True). rewrite He. cbn [app].
        rewrite convert_scalar by done. rewrite IH. destruct (decide (Forall _ cps)) as [Hf|Hf].
        * rewrite decide_True by by constructor. cbn. by rewrite <- app_assoc.
        * rewrite decide_False; [done|]. intros Ha. apply Hf. by inversion Ha.
      + rewrite decide_False by (intros Ha; by inversion Ha).
        destruct (pair_units cp Hcp) as (h & l & He & Hh & Hlo); [lia|]. rewrite He. cbn [app].
        rewrite convert_no_scalar; [done|lia|]. unfold scalar_value. lia. }
  unfold to_utf8, convert_into. rewrite Hc. by destruct (decide _).
Qed.
Print Assumptions C173_four_bytes_iff.
(** So not every text comes back. *)
Theorem C173_refuted two policy : ~ forall cps, Forall scalar_value cps ->
  (let* w := utf8_to_utf16 (text8 cps) in to_utf8 two policy (utf16_str w)) = Ok (text8 cps ++ [0]).
Proof.
  intros H. assert (Hs : Forall scalar_value [97; 128512]) by (repeat constructor; cbn; lia). specialize (H _ Hs).
  destruct two, policy; vm_compute in H; done.
Qed.
Print Assumptions C173_refuted.
Example C173_example :
  (let* w := utf8_to_utf16 (text8 [97; 233; 8364]) in to_utf8 true OnErrorAbort (utf16_str w)) = Ok (text8 [97; 233; 8364] ++ [0]) /\
  (let* w := utf8_to_utf16 (text8 [97; 128512]) in to_utf8 true OnErrorAbort (utf16_str w)) = Ok [97; 0] /\
  (let* w := utf8_to_utf16 (text8 [97; 128512]) in to_utf8 false OnErrorReplace (utf16_str w)) = Throw.
Proof. by split_and!. Qed.

(** One converter for several texts: the first comes out right; the next is put behind the 0 of the one before, so a converter
    that is used again does not hold the text it was last given. *)
Theorem C174_first policy cps : Forall scalar_value cps ->
  exists buffer, convert_into false policy [] cps = (true, buffer) /\ utf8_str buffer = text8 cps.
Proof. intros H. unfold convert_into. rewrite convert_32 by done. cbn [app]. eexists. split; [done|]. apply take_last. Qed.
Print Assumptions C174_first.
Theorem C174_again policy first cps : Forall scalar_value first -> Forall scalar_value cps ->
  exists buffer buffer', convert_into false policy [] first = (true, buffer) /\ convert_into false policy buffer cps = (true, buffer') /\
  utf8_str buffer' = text8 first ++ [0] ++ text8 cps.
Proof.
  intros Hf H. unfold convert_into. rewrite convert_32 by done. cbn [app]. eexists _, _. split; [done|].
  rewrite convert_32 by done. split; [done|]. unfold utf8_str. rewrite take_last. by rewrite <- app_assoc.
Qed.
Print Assumptions C174_again.
(** Never is it the text alone. *)
Theorem C174_again_refuted policy first cps : Forall scalar_value first -> Forall scalar_value cps ->
  exists buffer buffer', convert_into false policy [] first = (true, buffer) /\ convert_into false policy buffer cps = (true, buffer') /\
  utf8_str buffer' <> text8 cps.
Proof.
  intros Hf H. destruct (C174_again policy first cps Hf H) as (b & b' & H1 & H2 & H3). exists b, b'. split_and!; [done..|].
  rewrite H3. intros He. apply (f_equal length) in He. rewrite !app_length in He. cbn in He. lia.
Qed.
Print Assumptions C174_again_refuted.
(** After a failure it holds the text before the error, without a 0: its last char is not part of str. *)
Theorem C174_failed policy cps c rest : Forall scalar_value cps -> 0 <= c < 2 ^ 32 -> ~ scalar_value c ->
  exists buffer, convert_into false policy [] (cps ++ c :: rest) = (false, buffer) /\ buffer = text8 cps /\
  utf8_str buffer = take (length (text8 cps) - 1) (text8 cps).
Proof. intros H Hc Hn. unfold convert_into. rewrite convert_32_fails by done. cbn [app]. by eexists. Qed.
Print Assumptions C174_failed.
(** The same with wide chars of two bytes, where code points from 0x10000 on are dropped (C172). *)
Theorem C174_again_two_bytes policy first cps : Forall scalar_value first -> Forall scalar_value cps ->
  exists buffer buffer', convert_into true policy [] (text16 first) = (true, buffer) /\
  utf8_str buffer = text8 (filter (fun cp => cp < 0x10000) first) /\
  convert_into true policy buffer (text16 cps) = (true, buffer') /\
  utf8_str buffer' = text8 (filter (fun cp => cp < 0x10000) first) ++ [0] ++ text8 (filter (fun cp => cp < 0x10000) cps).
Proof.
  intros Hf H. unfold convert_into. rewrite convert_16 by done. cbn [app]. eexists _, _. split; [done|]. split; [apply take_last|].
  rewrite convert_16 by done. split; [done|]. unfold utf8_str. rewrite take_last. by rewrite <- app_assoc.
Qed.
Print Assumptions C174_again_two_bytes.
Theorem C174_failed_two_bytes cps u rest : Forall scalar_value cps -> Forall (fun u => 0 <= u <= 0xFFFF) (u :: rest) ->
  (forall cp t, scalar_value cp -> u :: rest <> utf16 cp ++ t) ->
  exists buffer, convert_into true OnErrorAbort [] (text16 cps ++ u :: rest) = (false, buffer) /\
  buffer = text8 (filter (fun cp => cp < 0x10000) cps).
Proof.
  intros H Hu Hno. apply Forall_cons in Hu as [Hu Hr]. unfold convert_into. rewrite convert_16_fails by done. by eexists.
Qed.
Print Assumptions C174_failed_two_bytes.
Example C174_example :
  convert_into false OnErrorAbort [] [97; 8364] = (true, [97; 226; 130; 172; 0]) /\
  convert_into false OnErrorAbort [97; 226; 130; 172; 0] [98] = (true, [97; 226; 130; 172; 0; 98; 0]) /\
  utf8_str [97; 226; 130; 172; 0; 98; 0] = [97; 226; 130; 172; 0; 98] /\
  convert_into false OnErrorReplace [] [97; 8364; 55296; 98] = (false, [97; 226; 130; 172]).
Proof. by split_and!. Qed.
Example C174_two_bytes_example : forall cp t, scalar_value cp -> [56832; 98] <> utf16 cp ++ t.
Proof.
  intros cp t Hcp He. destruct (decide (cp < 65536)) as [Hl|Hl].
  - unfold utf16 in He. rewrite decide_True in He by done. injection He as He _. unfold scalar_value in Hcp. lia.
  - destruct (pair_units cp Hcp) as (h & l & Hp & Hh & _); [lia|]. rewrite Hp in He. injection He as He _ _. lia.
Qed.
