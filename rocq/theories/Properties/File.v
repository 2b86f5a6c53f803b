(** Files (io.hpp): properties C74-C77, C106, C107. *)
From Verif Require Import Base.Cpp Spec.FileSpec Model.File Proofs.FileProofs.
Local Open Scope Z_scope.

(** ** C74: read_lines returns the lines of the file *)

(** Opening a file for reading and calling read_lines gives the lines of its content, whatever the
    content; the file does not change. *)
Theorem C74_read_lines bad p bytes w :
  disk w p = Some bytes -> Forall is_byte bytes ->
  exists f w1 ls w2, file_open bad p [114] w = Ok (Some f, w1) /\ read_lines f w1 = Ok (ls, w2) /\
    is_lines (to_char <$> bytes) ls /\ disk w2 = disk w.
Proof.
  intros Hd Hb. unfold file_open, fopen. rewrite Hd. simpl. eexists _, _. set (w1 := World _ _ _).
  assert (reads (length (streams w)) bytes w1) as Hr.
  { eexists. split; [apply list_lookup_middle; done|]. simpl. split_and!; [done|done|]. unfold content. simpl. by rewrite Hd. }
  destruct (read_lines_ok (File (Some (length (streams w))) (replicate 8 None)) _ bytes w1 eq_refl Hb Hr)
    as (ls & w2 & E & Hl & _ & Hd2).
  exists ls, w2. split_and!; [done|exact E|done|exact Hd2].
Qed.
Print Assumptions C74_read_lines.

(** A content has only one list of lines. *)
Theorem C74_lines_unique text ls1 ls2 : is_lines text ls1 -> is_lines text ls2 -> ls1 = ls2.
Proof. apply is_lines_unique. Qed.
Print Assumptions C74_lines_unique.

(** From any position of any open stream that can be read, read_line returns the chars up to the next
    newline, which it skips, or nothing at the end of the file. *)
Theorem C74_read_line f h s w bytes :
  f_file f = Some h -> streams w !! h = Some (Some s) -> s_read s = true -> s_last s <> Some Out ->
  drop (s_pos s) (content w (s_path s)) = bytes -> Forall is_byte bytes ->
  exists w', disk w' = disk w /\
    ((bytes = [] /\ read_line f w = Ok (None, w')) \/
     (exists line rest, 10 ∉ line /\
        (bytes = line ++ 10 :: rest \/ bytes = line /\ line <> [] /\ rest = []) /\
        read_line f w = Ok (Some (to_char <$> line), w') /\
        exists s', streams w' !! h = Some (Some s') /\ s_path s' = s_path s /\
          drop (s_pos s') (content w' (s_path s')) = rest)).
Proof.
  intros Hf Hs H1 H2 Hd Hb. destruct (read_line_any f w h s Hf Hs H2) as (l0 & s0 & E0 & Hl & _ & _).
  destruct (read_line_ok f h bytes w Hf Hb) as (w' & E & Hr & Hd').
  { by exists s. }
  rewrite E0 in E. injection E as E1 E2. exists w'. split; [done|]. destruct bytes as [|b bytes].
  - left. split; [done|]. rewrite E0. by subst.
  - right. destruct (split_line (b :: bytes)) as [x r] eqn:Es. simpl in E1, Hr. exists x, (default [] r).
    assert (exists s', streams w' !! h = Some (Some s') /\ s_path s' = s_path s /\
      drop (s_pos s') (content w' (s_path s')) = default [] r) as Hex.
    { destruct Hr as (s' & Hs' & _ & _ & Hd2). exists s'. split_and!; [done| |done].
      rewrite <- E2 in Hs'. erewrite set_stream_lookup in Hs' by done. simplify_eq. apply Hl. }
    destruct r as [r|].
    + apply split_line_app in Es as [-> Hx]. split_and!; [done|by left| |done]. rewrite E0. subst. done.
    + apply split_line_none in Es as [<- Hx]. split_and!; [done|right; done| |done]. rewrite E0. subst. done.
Qed.
Print Assumptions C74_read_line.

(** "a", "", 0xff and no newline at the end. *)
Example C74_example :
  let w := World (fun q => if decide (q = 5%nat) then Some [97; 10; 10; 255] else None) None [None] in
  read_lines (File (Some 1%nat) (replicate 8 None)) (World (disk w) None [None; Some (Stream 5 0 true false false None)])
  = Ok ([[97]; []; [-1]], World (disk w) None [None; Some (Stream 5 4 true false false None)]) /\
  is_lines [97; 10; 10; -1] [[97]; []; [-1]].
Proof.
  split; [reflexivity|]. split; [repeat (constructor; [by rewrite ?elem_of_cons, elem_of_nil; naive_solver lia|]); constructor|].
  right. by exists [[97]; []], [-1].
Qed.

(** ** C75: what is written is read back *)

(** If the mode were known -- C76 shows that it is not -- then what is written to an empty file as
    lines, each ended by a newline or with newlines between, is what is read back. Lines between
    newlines must not end with an empty line, which would not be seen. *)
Theorem C75_read_back_partial bad f h s mode ls text w :
  f_file f = Some h -> streams w !! h = Some (Some s) -> s_write s = true -> s_last s <> Some In ->
  s_pos s = 0%nat -> disk w (s_path s) = Some [] -> room w = None ->
  f_mode f = Some <$> mode -> 98 ∈ mode \/ 0 ∈ mode ->
  Forall (fun l => 10 ∉ l /\ 0 ∉ l /\ Forall is_char l) ls ->
  text = ended ls \/ text = joined ls /\ last ls <> Some [] ->
  exists w1, write_string f text w = Ok (true, w1) /\ write_data f text (Some (length text)) w = Ok (true, w1) /\
    exists f2 w2 w3, file_open bad (s_path s) [114] w1 = Ok (Some f2, w2) /\ read_lines f2 w2 = Ok (ls, w3).
Proof.
  intros Hf Hs H1 H2 H3 H4 H5 Hm Hmode Hls Htext.
  assert (is_lines text ls) as Hlines.
  { assert (Forall (fun l => 10 ∉ l) ls) as Hn by (eapply Forall_impl; [done|]; naive_solver).
    destruct Htext as [->|[-> Hlast]]; [by apply lines_of_ended|]. destruct ls as [|l ls _] using rev_ind; [apply is_lines_nil|].
    rewrite last_snoc in Hlast. apply lines_of_joined; [done|congruence]. }
  assert (0 ∉ text /\ Forall is_char text) as [Hz Hc].
  { destruct Hlines as [_ Ht]. assert (forall ls, Forall (fun l => 10 ∉ l /\ 0 ∉ l /\ Forall is_char l) ls -> 0 ∉ ended ls /\ Forall is_char (ended ls)) as He.
    { intros xs Hx. induction Hx as [|x xs (Hx1 & Hx2 & Hx3) _ [IH1 IH2]]; [by split; [apply not_elem_of_nil|constructor]|].
      rewrite ended_cons. split.
      - rewrite not_elem_of_app, not_elem_of_cons. done.
      - apply Forall_app. split; [done|]. constructor; [by unfold is_char|done]. }
    destruct Ht as [->|(xs & x & -> & _ & ->)]; [by apply He|]. apply Forall_app in Hls as [Ha Hb]. destruct (He xs Ha).
    inversion Hb as [|?? (? & ? & ?) _]; subst. rewrite not_elem_of_app, Forall_app. done. }
  assert (writes h (s_path s) [] None w) as Hw.
  { exists s. split_and!; try done. by right. }
  assert (exists binary, strchr (f_mode f) 98 = Ok binary) as [binary Eb].
  { rewrite Hm. clear -Hmode. induction mode as [|c mode IH].
    - destruct Hmode as [Hm|Hm]; by apply elem_of_nil in Hm.
    - simpl. case_decide; [by exists true|]. case_decide; [by exists false|]. apply IH. rewrite !elem_of_cons in Hmode. naive_solver. }
  assert (exists w1, write_string f text w = Ok (true, w1) /\ write_data f text (Some (length text)) w = Ok (true, w1) /\
    exists r', writes h (s_path s) (to_byte <$> text) r' w1) as (w1 & Ew1 & Ew2 & r' & Hw1).
  { unfold write_string, write_data. rewrite Hf, Eb. simpl. destruct binary.
    - rewrite decide_True by done. rewrite firstn_all. destruct (fwrite_ok h (s_path s) text [] None w Hw I) as (w1 & -> & H).
      exists w1. simpl. rewrite bool_decide_true by done. done.
    - destruct (fputs_ok h (s_path s) text Hz [] None w Hw I) as (w1 & Ew1 & H). exists w1.
      split_and!; [done| |done]. clear -Hw Ew1 Hz.
      assert (forall cs w, 0 ∉ cs -> put_chars cs (length cs) h w = fputs (cs ++ [0]) h w) as Heq.
      { clear. intros cs. induction cs as [|c cs IH]; intros w Hz; [done|]. simpl. rewrite not_elem_of_cons in Hz.
        rewrite (decide_False (P := c = 0)) by (destruct Hz; congruence). destruct (fputc c h w) as [[r w1]| | |]; simpl; [|done..].
        case_decide; [done|]. apply IH, Hz. }
      by rewrite Heq. }
  exists w1. split_and!; [done|done|]. destruct Hw1 as (s1 & _ & _ & _ & _ & Hc1 & _ & _).
  destruct (C74_read_lines bad (s_path s) (to_byte <$> text) w1 Hc1) as (f2 & w2 & ls2 & w3 & Eo & Er & Hl2 & _).
  { apply Forall_fmap, Forall_forall. intros c _. apply to_byte_is_byte. }
  exists f2, w2, w3. split; [done|]. rewrite Er. do 2 f_equal. eapply is_lines_unique; [exact Hl2|].
  rewrite <- list_fmap_compose. replace (to_char ∘ to_byte <$> text) with text; [done|].
  clear -Hc. induction Hc as [|c text H _ IH]; [done|]. csimpl. by rewrite to_char_to_byte, <- IH.
Qed.
Print Assumptions C75_read_back_partial.

(** Opened in mode "w" with the mode known, two lines one of which is empty. *)
Example C75_example :
  let w := World (fun q => if decide (q = 5%nat) then Some [] else None) None [Some (Stream 5 0 false true false None)] in
  let f := file_new 0 [119] in
  exists mode, f_mode f = Some <$> mode /\ 0 ∈ mode /\
  write_string f (joined [[]; [97; -1]]) w =
    Ok (true, World (fun q => if decide (q = 5%nat) then Some [10; 97; 255] else
                              if decide (q = 5%nat) then Some [10; 97] else
                              if decide (q = 5%nat) then Some [10] else
                              if decide (q = 5%nat) then Some [] else None) None [Some (Stream 5 3 false true false (Some Out))]).
Proof. exists [119; 0; 0; 0; 0; 0; 0; 0]. split_and!; [done|set_solver|reflexivity]. Qed.

(** ** C76: File remembers its mode *)

(** It does not: every write to a File that open returned reads an uninitialised array, whatever the
    path, the mode and the data. *)
Theorem C76_mode_lost_refuted bad p mode w f w' :
  file_open bad p mode w = Ok (Some f, w') ->
  (forall str, write_string f str w' = UB Uninit) /\
  (forall data len, write_data f data len w' = UB Uninit).
Proof.
  unfold file_open. destruct (fopen p mode w) as [[h|] w1]; simpl; intros; simplify_eq. done.
Qed.
Print Assumptions C76_mode_lost_refuted.

(** States reached by any program from one without File objects. *)
Inductive reachable (bad : nat -> bool) : fstate -> Prop :=
| reachable_start w : reachable bad (FState (fun _ => None) w)
| reachable_step st o st' : reachable bad st -> f_step bad o st = Some (Ok st') -> reachable bad st'.

(** Neither moving nor assigning the File helps. *)
Theorem C76_mode_lost_in_all_histories_refuted bad st i f :
  reachable bad st -> vars st i = Some f -> f_file f <> None ->
  (forall str, write_string f str (the_world st) = UB Uninit) /\
  (forall data len, write_data f data len (the_world st) = UB Uninit).
Proof.
  intros Hr Hv Hf. assert (modeless st) as Hm.
  { clear -Hr. induction Hr as [w|st o st' _ IH E]; [done|]. by eapply step_modeless. }
  unfold write_string, write_data. rewrite (Hm i f Hv). by destruct (f_file f).
Qed.
Print Assumptions C76_mode_lost_in_all_histories_refuted.

Example C76_example :
  file_open (fun _ => false) 5 [119] (World (fun _ => None) None []) =
    Ok (Some (File (Some 0%nat) (replicate 8 None)),
        World (fun q => if decide (q = 5%nat) then Some [] else None) None [Some (Stream 5 0 false true false None)]).
Proof. reflexivity. Qed.

(** ** C77: File closes its handle exactly once *)

(** Move assignment to a File with an open stream loses that stream: after both objects are destroyed
    it is still open. *)
Theorem C77_assign_leaks_refuted bad p1 m1 p2 m2 w f1 w1 f2 w2 :
  file_open bad p1 m1 w = Ok (Some f1, w1) -> file_open bad p2 m2 w1 = Ok (Some f2, w2) ->
  let '(g1, g2) := file_assign f1 f2 in
  exists w3 w4 h s, file_destroy bad g1 w2 = Ok w3 /\ file_destroy bad g2 w3 = Ok w4 /\
    f_file f1 = Some h /\ streams w4 !! h = Some (Some s).
Proof.
  unfold file_open. destruct (fopen p1 m1 w) as [[h1|] w1'] eqn:E1; simpl; intros; simplify_eq.
  destruct (fopen p2 m2 w1) as [[h2|] w2'] eqn:E2; simpl in *; simplify_eq.
  apply fopen_new in E1 as (-> & s1 & Es1 & _). apply fopen_new in E2 as (-> & s2 & Es2 & _).
  unfold file_destroy, fclose. simpl. rewrite Es2. rewrite list_lookup_middle by done. simpl.
  eexists _, _, _, s1. split_and!; [done|done|done|]. simpl. rewrite Es2, Es1.
  rewrite list_lookup_insert_ne by (rewrite app_length; simpl; lia).
  apply lookup_app_l_Some. by apply list_lookup_middle.
Qed.
Print Assumptions C77_assign_leaks_refuted.

(** If fclose fails in close(), the destructor closes the stream again, which is undefined. *)
Theorem C77_failed_close_refuted bad p mode w f w1 h :
  file_open bad p mode w = Ok (Some f, w1) -> f_file f = Some h -> bad h = true ->
  exists f' w2, close bad f w1 = Ok (false, f', w2) /\ file_destroy bad f' w2 = UB BadFree.
Proof.
  unfold file_open. destruct (fopen p mode w) as [[h1|] w1'] eqn:E1; simpl; intros E Hf Hb; simplify_eq.
  simpl in Hf. simplify_eq. apply fopen_new in E1 as (-> & s1 & Es1 & _).
  unfold close, fclose. simpl. rewrite Es1, list_lookup_middle by done. simpl. rewrite Hb. simpl. eexists _, _. split; [done|].
  unfold file_destroy, fclose. simpl. rewrite Es1, insert_app_r_alt, Nat.sub_diag by done. simpl. by rewrite list_lookup_middle.
Qed.
Print Assumptions C77_failed_close_refuted.

(** The programs without these two defects: fclose does not fail and no assignment is to a File with
    an open stream. *)
Inductive careful : fstate -> Prop :=
| careful_start w : (forall h s, streams w !! h <> Some (Some s)) -> careful (FState (fun _ => None) w)
| careful_step st o st' :
    careful st ->
    match o with FAssign i j => i = j \/ (forall f, vars st i = Some f -> f_file f = None) | _ => True end ->
    f_step (fun _ => false) o st = Some (Ok st') -> careful st'.

(** Nothing is undefined in them; the open streams are those of the File objects, each of one object;
    when no object is left, no stream is open. *)
Theorem C77_closed_once_partial st :
  careful st ->
  (forall o r, match o with FAssign i j => i = j \/ (forall f, vars st i = Some f -> f_file f = None) | _ => True end ->
     f_step (fun _ => false) o st = Some r -> exists st', r = Ok st') /\
  (forall h, (exists s, streams (the_world st) !! h = Some (Some s)) <->
     exists i f, vars st i = Some f /\ f_file f = Some h) /\
  (forall i j f g h, vars st i = Some f -> vars st j = Some g -> f_file f = Some h -> f_file g = Some h -> i = j) /\
  ((forall i, vars st i = None) -> forall h s, streams (the_world st) !! h <> Some (Some s)).
Proof.
  intros Hc. assert (finv st) as Hi.
  { induction Hc as [w Hw|st o st' _ IH Hn E].
    - split; simpl; try done; [|intros h s Hs; by apply Hw in Hs]. intros h [s Hs]. by apply Hw in Hs.
    - destruct (step_inv (fun _ => false) o st (Ok st')) as (st2 & ? & ?); [done|done|by destruct o|done|]. by simplify_eq. }
  split_and!.
  - intros o r Hn E. destruct (step_inv (fun _ => false) o st r) as (st2 & ? & ?); [done|done|by destruct o|done|]. eauto.
  - intros h. split.
    + intros Hh. by apply (fi_owner _ Hi).
    + intros (i & f & Hv & Hf). by eapply (fi_open _ Hi).
  - apply (fi_one _ Hi).
  - intros Hnone h s Hs. destruct (fi_owner _ Hi h) as (i & f & Hv & _); [by eexists|]. by rewrite Hnone in Hv.
Qed.
Print Assumptions C77_closed_once_partial.

(** Open, move, read, assign back to the moved-from object, close, destroy both. *)
Example C77_example :
  let step o st := match st with Some (Ok s) => f_step (fun _ => false) o s | x => x end in
  let start := FState (fun _ => None) (World (fun _ => Some [97; 10]) None []) in
  exists st, foldl (fun st o => step o st) (Some (Ok start))
    [FOpen 0 5 [114]; FMove 1 0; FReadLines 1; FAssign 0 1; FClose 0; FDestroy 0; FDestroy 1] = Some (Ok st) /\
    streams (the_world st) = [None].
Proof. eexists. split; [reflexivity|]. reflexivity. Qed.

(** ** C106: a closed or moved-from File is harmless *)

(** seek and tell pass a null pointer to the C library. *)
Theorem C106_seek_tell_refuted f w offset : f_file f = None -> seek f offset w = UB NullDeref /\ tell f w = UB NullDeref.
Proof. intros H. unfold seek, tell. by rewrite H. Qed.
Print Assumptions C106_seek_tell_refuted.

(** The other operations do nothing and report failure, and the destructor does nothing. *)
Theorem C106_other_operations_partial bad f g w :
  (f_file f = None \/ f = (file_move g).2 \/ (exists h, f = (file_assign h g).2) \/
   exists w0, close bad g w0 = Ok (true, f, w)) ->
  read_line f w = Ok (None, w) /\ read_lines f w = Ok ([], w) /\
  (forall str, write_string f str w = Ok (false, w)) /\ (forall data len, write_data f data len w = Ok (false, w)) /\
  close bad f w = Ok (false, f, w) /\ file_destroy bad f w = Ok w /\
  exists w', flush f w = Ok w' /\ disk w' = disk w.
Proof.
  intros H. assert (f_file f = None) as Hf.
  { destruct H as [H|[->|[[h ->]|[w0 H]]]]; [done|done|done|]. unfold close in H. destruct (f_file g) as [h|]; [|simplify_eq].
    destruct (fclose bad h w0) as [[[] w1]| | |]; simpl in H; simplify_eq. done. }
  split_and!.
  - by apply null_read_line.
  - by apply null_read_lines.
  - intros. unfold write_string. by rewrite Hf.
  - intros. unfold write_data. by rewrite Hf.
  - unfold close. by rewrite Hf.
  - unfold file_destroy. by rewrite Hf.
  - unfold flush. rewrite Hf. simpl. eexists. by split.
Qed.
Print Assumptions C106_other_operations_partial.

Example C106_example :
  exists f w, close (fun _ => false) (File (Some 0%nat) (replicate 8 None)) (World (fun _ => None) None [Some (Stream 5 0 false true false None)])
    = Ok (true, f, w).
Proof. by eexists _, _. Qed.

(** ** C107: tell returns the position *)

(** After seek(n), tell returns n as long as n is less than 2^31. *)
Theorem C107_tell_partial f h s w n :
  f_file f = Some h -> streams w !! h = Some (Some s) -> 0 <= n < 2 ^ 31 ->
  exists w', seek f n w = Ok (true, w') /\ tell f w' = Ok n /\ disk w' = disk w.
Proof.
  intros Hf Hs Hn. unfold seek, fseek, tell, ftell, with_stream. rewrite Hf, Hs. simpl. rewrite decide_True by lia.
  eexists. split; [done|]. erewrite set_stream_lookup by done. simpl. split; [|done]. do 2 f_equal.
  rewrite Z2Nat.id by lia. unfold to_int. rewrite Z.mod_small; lia.
Qed.
Print Assumptions C107_tell_partial.

(** From 2^31 on it never does. *)
Theorem C107_tell_refuted f h s w n :
  f_file f = Some h -> streams w !! h = Some (Some s) -> 2 ^ 31 <= n ->
  exists w' m, seek f n w = Ok (true, w') /\ tell f w' = Ok m /\ m <> n.
Proof.
  intros Hf Hs Hn. unfold seek, fseek, tell, ftell, with_stream. rewrite Hf, Hs. simpl. rewrite decide_True by lia.
  eexists _, _. split; [done|]. erewrite set_stream_lookup by done. simpl. split; [done|].
  rewrite Z2Nat.id by lia. unfold to_int. pose proof (Z.mod_pos_bound (n + 2 ^ 31) (2 ^ 32)). lia.
Qed.
Print Assumptions C107_tell_refuted.

Example C107_example :
  tell (File (Some 0%nat) []) (World (fun _ => None) None [Some (Stream 5 7 true false false None)]) = Ok 7.
Proof. reflexivity. Qed.
