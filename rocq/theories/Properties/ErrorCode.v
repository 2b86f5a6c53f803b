(** Error messages (fmt/format-inl.h) and buffers that stay in place (fmt/format.h): properties C168-C170. *)
From Coq Require Import Strings.String.
From Verif Require Import Base.Cpp Model.Numeric Model.FmtInt Model.FormatSpecs Model.Format Model.Print Model.ErrorCode.
From Verif Require Import Spec.FormatSpec Proofs.FormatValue Proofs.ErrorCode.
From Verif Require Import Base.Mem Model.FmtBuffer Spec.BufferSpec Proofs.FmtBufferProofs Proofs.FmtBufferWorld Proofs.FmtBufferInPlace.
From Verif Require Import Properties.Format Properties.FmtBuffer.
Local Open Scope Z_scope.

(** ** C168: the text of an error code *)

(** What stands for an error: the message, if it fits into 500 chars with the code, and the code. *)
Definition error_text (message digits s : list Z) : Prop :=
  (length (message ++ lit ": error " ++ digits) <= 500)%nat /\ s = message ++ lit ": error " ++ digits \/
  (500 < length (message ++ lit ": error " ++ digits))%nat /\ s = lit "error " ++ digits.
(** Whatever was in the buffer, it holds this text, and never more than 500 chars. *)
Theorem C168_text E out z message : in_range int32 z = true ->
  exists digits s, decimal z digits /\ error_text message digits s /\ format_error_code E out z message = Ok s /\ (length s <= 500)%nat.
Proof.
  intros Hz. destruct (format_error_code_ok E out z message Hz) as (digits & Hd & Hl & ->).
  assert (H8 : length (lit ": error ") = 8%nat) by done. assert (H6 : length (lit "error ") = 6%nat) by done.
  exists digits. eexists. split; [done|]. split; [|split; [reflexivity|]].
  - unfold error_text. rewrite !app_length, H8. case_decide; [left|right]; (split; [lia|done]).
  - case_decide; rewrite !app_length, ?H8, ?H6; lia.
Qed.
Print Assumptions C168_text.
Example C168_example :
  format_error_code ex_env (lit "old") (-2147483648) (lit "cannot open") = Ok (lit "cannot open: error -2147483648") /\
  format_error_code ex_env (lit "old") 13 (replicate 490 97) = Ok (replicate 490 97 ++ lit ": error 13") /\
  format_error_code ex_env (lit "old") 13 (replicate 491 97) = Ok (lit "error 13") /\ in_range int32 (-2147483648) = true.
Proof. split_and!; vm_compute; reflexivity. Qed.

(** ** C169: errors that are reported *)

(** format_system_error appends what the library says. If that fails, the text is that of C168, and nothing of what was
    written of the other is left. *)
Theorem C169_format E sys out z addr message rest : in_range int32 z = true -> addr <> 0 -> Forall (fun c => c <> 0) message ->
  match sys z message with
  | Written t => format_system_error E sys out z addr (message ++ 0 :: rest) = Ok (out ++ t)
  | Failed part => exists digits s, decimal z digits /\ error_text message digits s /\
      format_system_error E sys out z addr (message ++ 0 :: rest) = Ok s
  end.
Proof.
  intros Hz Ha Hm. unfold format_system_error. rewrite decide_False by done. rewrite c_string_ok by done. cbn [bind].
  destruct (sys z message) as [t|part]; [done|]. destruct (C168_text E (out ++ part) z message Hz) as (digits & s & Hd & Hs & Hf & _). eauto.
Qed.
Print Assumptions C169_format.
(** Then what the buffer held before is lost too. *)
Theorem C169_appends_refuted : exists sys, format_system_error ex_env sys (lit "kept") 2 4096 [0] = Ok (lit ": error 2").
Proof. exists (fun _ _ => Failed []). vm_compute. reflexivity. Qed.
Print Assumptions C169_appends_refuted.
(** What is said about the error: by the library, or else the text of C168. *)
Definition says (sys : Z -> list Z -> attempt) (z : Z) (message s : list Z) : Prop :=
  match sys z message with
  | Written t => s = t
  | Failed _ => exists digits, decimal z digits /\ error_text message digits s
  end.
Lemma error_text_some message digits s : error_text message digits s -> s <> [].
Proof. intros [[_ ->]|[_ ->]]; [by destruct message|done]. Qed.
(** A report is one line, if the stream takes it. A stream that takes [n] more chars gets as much as there is room for, and the
    end of the line only after all of the text. No exception leaves the function. *)
Theorem C169_report E sys z addr message rest w room : in_range int32 z = true -> addr <> 0 -> Forall (fun c => c <> 0) message ->
  exists s room' , says sys z message s /\
    report_system_error E sys z addr (message ++ 0 :: rest) (Stream w room) =
      (Stream (w ++ match room with Some n => take n (if decide (s = []) then [] else s ++ [10]) | None => if decide (s = []) then [] else s ++ [10] end) room', Ok tt) /\
    room' = (fun n => n - length (if decide (s = []) then [] else s ++ [10%Z]))%nat <$> room.
Proof.
  intros Hz Ha Hm. pose proof (C169_format E sys [] z addr message rest Hz Ha Hm) as Hf.
  assert (Hs : exists s, says sys z message s /\ format_system_error E sys [] z addr (message ++ 0 :: rest) = Ok s).
  { unfold says. destruct (sys z message) as [t|part]; [by exists t|]. destruct Hf as (digits & s & Hd & Hs & Hf). eauto. }
  destruct Hs as (s & Hs & Hfs). exists s. eexists. split; [done|]. split; [|reflexivity]. unfold report_system_error, report_error. rewrite Hfs. unfold fwrite. cbn [takes Print.given].
  destruct (decide (s = [])) as [->|Hne].
  { destruct room as [n|]; cbn; rewrite ?Nat.min_0_r; cbn; rewrite ?take_nil, app_nil_r; [|done]. by destruct n. }
  assert (length s <> 0%nat) by (by destruct s).
  destruct room as [n|]; cbn [fmap option_fmap option_map fst snd takes Print.given].
  - destruct (decide (length s <= n)%nat) as [Hle|Hgt].
    + rewrite Nat.min_r by done. rewrite decide_True by done. cbn [fst]. rewrite firstn_all. rewrite app_length. cbn [length].
      f_equal. f_equal; [|f_equal; lia]. rewrite <- app_assoc. f_equal. rewrite (take_app_ge s) by done. f_equal.
      destruct (n - length s)%nat as [|k]; [done|]. cbn. by destruct k.
    + rewrite Nat.min_l by lia. rewrite decide_False by lia. rewrite app_length. cbn [length]. f_equal. f_equal; [|f_equal; lia]. by rewrite take_app_le by lia.
  - rewrite decide_True by done. cbn. by rewrite firstn_all, <- app_assoc.
Qed.
Print Assumptions C169_report.
(** Reports that follow each other, with a library that has something to say, are a line each. *)
Fixpoint report_all (E : env) (sys : Z -> list Z -> attempt) (errors : list (Z * list Z)) (f : stream) : stream :=
  match errors with [] => f | (z, message) :: l => report_all E sys l (fst (report_system_error E sys z 4096 (message ++ [0]) f)) end.
Theorem C169_lines E sys errors w : (forall z message, sys z message <> Written []) ->
  Forall (fun '(z, message) => in_range int32 z = true /\ Forall (fun c => c <> 0) message) errors ->
  exists texts, Forall2 (fun '(z, message) s => says sys z message s) errors texts /\
    report_all E sys errors (Stream w None) = Stream (w ++ concat ((fun s => s ++ [10]) <$> texts)) None.
Proof.
  intros Hsys H. revert w. induction H as [|[z message] errors [Hz Hm] _ IH]; intros w.
  { exists []. split; [constructor|]. cbn. by rewrite app_nil_r. }
  destruct (C169_report E sys z 4096 message [] w None Hz ltac:(done) Hm) as (s & room & Hs & Hr & ->).
  assert (Hne : s <> []).
  { unfold says in Hs. destruct (sys z message) as [t|part] eqn:He; [subst t; intros ->; by apply (Hsys z message)|]. destruct Hs as (digits & _ & Hs). by eapply error_text_some. }
  cbn [report_all]. rewrite Hr. rewrite decide_False by done. cbn [fst fmap option_fmap option_map].
  destruct (IH (w ++ s ++ [10])) as (texts & Ht & ->). exists (s :: texts). split; [by constructor|]. cbn. by rewrite <- !app_assoc.
Qed.
Print Assumptions C169_lines.
(** A null message is undefined behaviour. *)
Theorem C169_null_refuted E sys z chars f : report_system_error E sys z 0 chars f = (f, UB NullDeref).
Proof. done. Qed.
Print Assumptions C169_null_refuted.
Example C169_example :
  let sys z message := if decide (z = 2) then Written (message ++ lit ": No such file") else Failed message in
  report_all ex_env sys [(2, lit "a.txt"); (-7, lit "b"); (2, lit "c")] (Stream [] None)
    = Stream (lit "a.txt: No such file" ++ [10] ++ lit "b: error -7" ++ [10] ++ lit "c: No such file" ++ [10]) None /\
  report_system_error ex_env sys 5 4096 (lit "b" ++ [0]) (Stream [] (Some 5%nat)) = (Stream (lit "b: er") (Some 0%nat), Ok tt) /\
  (forall z message, sys z message <> Written []).
Proof.
  intros sys. split_and!; [vm_compute; reflexivity..|]. intros z message. unfold sys. case_decide; [|done]. intros [= Heq]. by apply app_eq_nil in Heq as [_ Heq].
Qed.

(** ** C170: a text that fits is kept in the buffer object *)

(** As long as the writes find room in the [N] chars of the object, no storage is allocated but the object's own, and the text is
    there. *)
Theorem C170_in_place m N ws : fit N ws ->
  exists m' o', run_writes (memory_buffer m N).1 (memory_buffer m N).2 ws = Ok (m', o') /\ in_place o' /\
    block_of o' = block_of (memory_buffer m N).2 /\ capacity o' = Z.of_nat N /\ contents m' o' = Ok (writes_text ws) /\
    length (blocks m') = S (length (blocks m)) /\ leaks m' = leaks m.
Proof.
  intros Hfit. destruct (C146_thrown_away m N ws) as (m' & o' & _ & Hr & _). exists m', o'. split; [done|].
  pose proof (fresh_holds _ _ _ _ _ Hr) as Hh.
  destruct (writes_stay (memory_buffer m N).1 (memory_buffer m N).2 [] ws (m', o')) as (Ho & Hb & Hl); [done| |done|].
  { intros before w after Hw. specialize (Hfit before w after Hw). cbn. lia. }
  cbn in Ho, Hb, Hl. subst o'. split_and!; [done|done|done|by eapply contents_ok| |done].
  rewrite Hb, app_length. cbn. lia.
Qed.
Print Assumptions C170_in_place.
(** Otherwise the text leaves the object for good. *)
Theorem C170_iff m N ws m' o' : run_writes (memory_buffer m N).1 (memory_buffer m N).2 ws = Ok (m', o') -> in_place o' <-> fit N ws.
Proof.
  intros Hr. split.
  - intros Hin. destruct (writes_fit (length (blocks m)) (memory_buffer m N).1 (memory_buffer m N).2 [] ws (m', o')) as [[[Hf _] Ha]|Hfit].
    + split; [done|]. cbn. rewrite app_length. cbn. lia.
    + done.
    + cbn. lia.
    + done.
    + cbn in Hf, Ha. unfold in_place in Hin. rewrite Hf in Hin. injection Hin as Hin. congruence.
    + intros before w after Hw. specialize (Hfit before w after Hw). cbn in Hfit. lia.
  - intros Hfit. destruct (C170_in_place m N ws Hfit) as (m1 & o1 & H & Hin & _). rewrite Hr in H. by injection H as _ ->.
Qed.
Print Assumptions C170_iff.
(** So the text of an error code, in the 500 chars of a memory_buffer, is written without allocation, if room is asked for
    only for text that follows, as the code does (write of integers, format.h:2572-2593). *)
Theorem C170_error_code E m z message ws : in_range int32 z = true ->
  format_error_code E [] z message = Ok (writes_text ws) ->
  (forall before n after, ws = before ++ Reserve n :: after -> (n <= length (writes_text after))%nat) ->
  exists m' o', run_writes (memory_buffer m 500).1 (memory_buffer m 500).2 ws = Ok (m', o') /\ in_place o' /\
    contents m' o' = Ok (writes_text ws) /\ length (blocks m') = S (length (blocks m)).
Proof.
  intros Hz Hf Hnr. destruct (C168_text E [] z message Hz) as (digits & s & _ & _ & Hs & Hl). rewrite Hf in Hs. injection Hs as Hs. rewrite <- Hs in Hl.
  destruct (C170_in_place m 500 ws) as (m' & o' & H1 & H2 & _ & _ & H3 & H4 & _); [|by exists m', o'].
  intros before w after ->. unfold writes_text in *. rewrite map_app, concat_app, app_length in Hl. cbn in Hl. rewrite app_length in Hl.
  destruct w as [| | |n]; cbn in *; try lia. specialize (Hnr before n after eq_refl). lia.
Qed.
Print Assumptions C170_error_code.
(** Four chars in an array of four, and one more. *)
Example C170_example : fit 4 [Append [97; 98]; Reserve 2; Push 99; Direct [100]] /\
  (exists m o, run_writes (memory_buffer mem0 4).1 (memory_buffer mem0 4).2 [Append [97; 98]; Reserve 2; Push 99; Direct [100]; Push 101] = Ok (m, o) /\
    ~ in_place o /\ length (blocks m) = 2%nat) /\
  (let ws := [Append (lit "a"); Append (lit ": "); Append (lit "error "); Reserve 2; Direct (lit "13")] in
    format_error_code ex_env [] 13 (lit "a") = Ok (writes_text ws) /\
    forall before n after, ws = before ++ Reserve n :: after -> (n <= length (writes_text after))%nat).
Proof.
  split_and!; [|do 2 eexists; split; [vm_compute; reflexivity|split; [|reflexivity]]; unfold in_place; cbn; done|split; [vm_compute; reflexivity|]].
  - intros before w after H. do 4 (destruct before as [|? before]; [injection H as <- _; cbn; lia|injection H as <- H]). by destruct before.
  - intros before n after H. do 5 (destruct before as [|? before]; [first [discriminate H|injection H as <- <-; cbn; lia]|injection H as <- H]). by destruct before.
Qed.
