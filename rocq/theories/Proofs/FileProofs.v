From Verif Require Import Base.Cpp Spec.FileSpec Model.File.
Set Default Proof Using "Type".
Local Open Scope Z_scope.

(** ** Lines *)
Fixpoint split_line (l : list Z) : list Z * option (list Z) :=
  match l with
  | [] => ([], None)
  | b :: l => if decide (b = newline) then ([], Some l) else let '(x, r) := split_line l in (b :: x, r)
  end.

Lemma split_line_app l x r : split_line l = (x, Some r) -> l = x ++ newline :: r /\ newline ∉ x.
Proof.
  revert x r. induction l as [|b l IH]; intros x r H; simpl in H; [done|]. case_decide as E.
  - simplify_eq. split; [done|]. apply not_elem_of_nil.
  - destruct (split_line l) as [x' r'] eqn:E2. simplify_eq. destruct (IH x' r eq_refl) as [-> Hn].
    split; [done|]. rewrite not_elem_of_cons. auto.
Qed.
Lemma split_line_none l x : split_line l = (x, None) -> l = x /\ newline ∉ x.
Proof.
  revert x. induction l as [|b l IH]; intros x H; simpl in H.
  - simplify_eq. split; [done|]. apply not_elem_of_nil.
  - case_decide as E; [done|]. destruct (split_line l) as [x' r'] eqn:E2. simplify_eq.
    destruct (IH x' eq_refl) as [-> Hn]. split; [done|]. rewrite not_elem_of_cons. auto.
Qed.
Lemma to_char_newline b : is_byte b -> to_char b = newline <-> b = newline.
Proof. unfold is_byte, to_char, newline. case_decide; lia. Qed.
Lemma no_newline x : Forall is_byte x -> newline ∉ x -> 10 ∉ to_char <$> x.
Proof.
  intros Hb Hn Hin. apply elem_of_list_fmap in Hin as (b & E & Hin). apply Hn.
  rewrite Forall_forall in Hb. apply eq_sym, (to_char_newline b (Hb b Hin)) in E. by subst.
Qed.
Lemma ended_app ls l : ended (ls ++ [l]) = ended ls ++ l ++ [10].
Proof. unfold ended. rewrite map_app, concat_app. simpl. by rewrite app_nil_r. Qed.
Lemma ended_cons l ls : ended (l :: ls) = l ++ 10 :: ended ls.
Proof. unfold ended. simpl. by rewrite <- app_assoc. Qed.

Lemma split_unique (x y r s : list Z) : 10 ∉ x -> 10 ∉ y -> x ++ 10 :: r = y ++ 10 :: s -> x = y /\ r = s.
Proof.
  revert y. induction x as [|a x IH]; intros [|b y] Hx Hy H; simplify_eq/=; try done.
  - by destruct Hy; left.
  - by destruct Hx; left.
  - rewrite not_elem_of_cons in Hx, Hy. destruct (IH y) as [-> ->]; tauto.
Qed.
Lemma is_lines_cons l ls text : 10 ∉ l -> is_lines text ls -> is_lines (l ++ 10 :: text) (l :: ls).
Proof.
  intros Hl [H1 H2]. split; [by constructor|]. destruct H2 as [-> |(ls' & x & -> & Hx & ->)].
  - left. by rewrite ended_cons.
  - right. exists (l :: ls'), x. split_and!; [done|done|]. by rewrite ended_cons, <- app_assoc.
Qed.
Lemma is_lines_last l : 10 ∉ l -> l <> [] -> is_lines l [l].
Proof. intros H1 H2. split; [by constructor|]. right. by exists [], l. Qed.
Lemma is_lines_nil : is_lines [] [].
Proof. split; [done|]. by left. Qed.

(** Lines are determined by the text. *)
Lemma is_lines_inv text l ls : is_lines text (l :: ls) ->
  10 ∉ l /\ ((exists rest, text = l ++ 10 :: rest /\ is_lines rest ls) \/ (text = l /\ ls = [] /\ l <> [])).
Proof.
  intros [H1 H2]. inversion H1 as [|?? Hl Hls]; subst. split; [done|]. destruct H2 as [-> |(ls' & x & E & Hx & ->)].
  - left. exists (ended ls). rewrite ended_cons. split; [done|]. split; [done|]. by left.
  - destruct ls' as [|l' ls'].
    + right. simpl in E. simplify_eq. done.
    + left. simpl in E. simplify_eq. exists (ended ls' ++ x). rewrite ended_cons, <- app_assoc. split; [done|].
      split; [done|]. right. by exists ls', x.
Qed.
Lemma is_lines_unique text ls1 ls2 : is_lines text ls1 -> is_lines text ls2 -> ls1 = ls2.
Proof.
  revert text ls2. induction ls1 as [|l1 ls1 IH]; intros text [|l2 ls2] H1 H2.
  - done.
  - destruct H1 as [_ [-> |(? & ? & E & _)]]; [|by destruct x]. apply is_lines_inv in H2 as (_ & [(r & E & _)|(E & _ & ?)]).
    + by destruct l2.
    + by subst.
  - destruct H2 as [_ [-> |(? & ? & E & _)]]; [|by destruct x]. apply is_lines_inv in H1 as (_ & [(r & E & _)|(E & _ & ?)]).
    + by destruct l1.
    + by subst.
  - apply is_lines_inv in H1 as (Hn1 & H1), H2 as (Hn2 & H2).
    destruct H1 as [(r1 & E1 & H1)|(E1 & -> & ?)], H2 as [(r2 & E2 & H2)|(E2 & -> & ?)]; subst.
    + apply split_unique in E2 as [-> ->]; [|done..]. f_equal. eauto.
    + by destruct Hn2; set_solver.
    + by destruct Hn1; set_solver.
    + done.
Qed.
Lemma lines_of_ended ls : Forall (fun l => 10 ∉ l) ls -> is_lines (ended ls) ls.
Proof. intros H. split; [done|]. by left. Qed.
Lemma joined_snoc ls l : joined (ls ++ [l]) = ended ls ++ l.
Proof.
  induction ls as [|x ls IH]; [done|]. rewrite ended_cons. simpl. destruct (ls ++ [l]) eqn:E; [by destruct ls|].
  rewrite <- E in *. rewrite IH. by rewrite <- app_assoc.
Qed.
Lemma lines_of_joined ls l : Forall (fun l => 10 ∉ l) (ls ++ [l]) -> l <> [] -> is_lines (joined (ls ++ [l])) (ls ++ [l]).
Proof. intros H Hl. split; [done|]. right. exists ls, l. by rewrite joined_snoc. Qed.

(** ** Streams *)
Lemma set_stream_lookup h s w s0 : streams w !! h = Some s0 -> streams (set_stream h s w) !! h = Some s.
Proof. intros H. simpl. apply list_lookup_insert. by eapply lookup_lt_Some. Qed.
Lemma set_stream_twice h s s' w : set_stream h s (set_stream h s' w) = set_stream h s w.
Proof. unfold set_stream. simpl. by rewrite list_insert_insert. Qed.
Lemma set_stream_same h s w : streams w !! h = Some s -> set_stream h s w = w.
Proof. intros H. unfold set_stream. rewrite list_insert_id by done. by destruct w. Qed.

(** Same file, same permissions, can be read. *)
Definition like (s s' : stream) : Prop :=
  s_path s' = s_path s /\ s_read s' = s_read s /\ s_write s' = s_write s /\ s_append s' = s_append s /\
  s_last s' <> Some Out.

Lemma fgetc_any h w s : streams w !! h = Some (Some s) -> s_last s <> Some Out ->
  exists ch s', fgetc h w = Ok (ch, set_stream h (Some s') w) /\ like s s' /\
    (ch <> EOF -> left_over h (set_stream h (Some s') w) < left_over h w)%nat /\
    (left_over h (set_stream h (Some s') w) <= left_over h w)%nat.
Proof.
  intros Hs Hl. unfold fgetc, with_stream. rewrite Hs. destruct (s_read s) eqn:Er.
  - assert (forall d, match s_last s with Some Out => UB StreamOrder | _ => d end = d :> res (Z * world)) as Hd.
    { intros d. destruct (s_last s) as [[]|]; done. }
    rewrite Hd. destruct (content w (s_path s) !! s_pos s) as [b|] eqn:Eb.
    + eexists _, _. split; [done|]. split; [done|]. pose proof (lookup_lt_Some _ _ _ Eb) as Hlt.
      unfold left_over. erewrite set_stream_lookup by done. rewrite Hs. simpl. unfold content in *. simpl. split; lia.
    + eexists _, _. split; [done|]. split; [done|]. split; [done|].
      unfold left_over. erewrite set_stream_lookup by done. rewrite Hs. simpl. unfold content. simpl. lia.
  - exists EOF, s. rewrite set_stream_same by done. split_and!; done.
Qed.

Lemma read_line_any f w h s : f_file f = Some h -> streams w !! h = Some (Some s) -> s_last s <> Some Out ->
  exists line s', read_line f w = Ok (line, set_stream h (Some s') w) /\ like s s' /\
    (line <> None -> left_over h (set_stream h (Some s') w) < left_over h w)%nat /\
    (left_over h (set_stream h (Some s') w) <= left_over h w)%nat.
Proof.
  intros Hf Hs Hl. unfold read_line. rewrite Hf.
  assert (wp (read_loop h w) (fun '(buffer, ch, w') => exists s', w' = set_stream h (Some s') w /\ like s s' /\
    (left_over h w' <= left_over h w)%nat /\
    (~ (ch = EOF /\ buffer = []) -> left_over h w' < left_over h w)%nat)) as Hw.
  { unfold read_loop. eapply (wp_loop (fun '(buffer, w') => exists s', w' = set_stream h (Some s') w /\ like s s' /\
      (left_over h w' <= left_over h w)%nat /\ (buffer <> [] -> left_over h w' < left_over h w)%nat)
      (fun '(_, w') => left_over h w')).
    - lia.
    - exists s. rewrite set_stream_same by done. split_and!; done.
    - intros [buffer w'] (s' & -> & Hlike & Hle & Hlt).
      destruct (fgetc_any h (set_stream h (Some s') w) s') as (ch & s2 & E & Hlike2 & Hd1 & Hd2).
      { by eapply set_stream_lookup. } { apply Hlike. }
      rewrite E. simpl. rewrite set_stream_twice in *. assert (like s s2) as Hl2.
      { unfold like in *. destruct_and!. split_and!; congruence. }
      case_decide as Hc; (eexists; split; [reflexivity|]).
      + destruct Hc as [Hc1 Hc2]. specialize (Hd1 Hc2). split; [|lia]. exists s2. split_and!; [done|done|lia|lia].
      + exists s2. split_and!; [done|done|lia|]. intros Hne. destruct (decide (ch = EOF)) as [->|He]; [|specialize (Hd1 He); lia].
        assert (buffer <> []) as Hb by tauto. specialize (Hlt Hb). lia. }
  destruct Hw as ([[buffer ch] w'] & -> & s' & -> & Hlike & Hle & Hlt). simpl. case_decide as Hc.
  - exists None, s'. split_and!; done.
  - exists (Some buffer), s'. split_and!; auto.
Qed.

Lemma like_trans s s1 s2 : like s s1 -> like s1 s2 -> like s s2.
Proof. unfold like. intros. destruct_and!. split_and!; congruence. Qed.

Lemma read_lines_any f w h s : f_file f = Some h -> streams w !! h = Some (Some s) -> s_last s <> Some Out ->
  exists lines s', read_lines f w = Ok (lines, set_stream h (Some s') w) /\ like s s'.
Proof.
  intros Hf Hs Hl. unfold read_lines. rewrite Hf.
  match goal with |- context [loop ?n ?st ?i] =>
    assert (wp (loop n st i) (fun '(_, w') => exists s', w' = set_stream h (Some s') w /\ like s s')) as Hw end.
  { eapply (wp_loop (fun '(_, w') => exists s', w' = set_stream h (Some s') w /\ like s s') (fun '(_, w') => left_over h w')).
    - lia.
    - exists s. by rewrite set_stream_same.
    - intros [lines w'] (s' & -> & Hlike).
      destruct (read_line_any f (set_stream h (Some s') w) h s') as (line & s2 & E & Hlike2 & Hd1 & Hd2).
      { done. } { by eapply set_stream_lookup. } { apply Hlike. }
      rewrite E. simpl. rewrite set_stream_twice in *. pose proof (like_trans _ _ _ Hlike Hlike2).
      destruct line as [l|]; (eexists; split; [reflexivity|]).
      + split; [by exists s2|]. apply Hd1. done.
      + by exists s2. }
  destruct Hw as ([lines w'] & -> & s' & -> & Hlike). by exists lines, s'.
Qed.

(** *** Reading bytes *)
(** The stream [h] is about to read [rest]. *)
Definition reads (h : nat) (rest : list Z) (w : world) : Prop :=
  exists s, streams w !! h = Some (Some s) /\ s_read s = true /\ s_last s <> Some Out /\
    drop (s_pos s) (content w (s_path s)) = rest.

Lemma reads_left h rest w : reads h rest w -> left_over h w = length rest.
Proof. intros (s & H1 & _ & _ & <-). unfold left_over. by rewrite H1, drop_length. Qed.

Lemma fgetc_byte h b rest w : reads h (b :: rest) w ->
  exists w', fgetc h w = Ok (b, w') /\ reads h rest w' /\ disk w' = disk w.
Proof.
  intros (s & H1 & H2 & H3 & H4). unfold fgetc, with_stream. rewrite H1, H2.
  assert (content w (s_path s) !! s_pos s = Some b) as Hb.
  { rewrite <- (Nat.add_0_r (s_pos s)), <- lookup_drop, H4. done. }
  rewrite Hb. exists (set_stream h (Some (moved s (S (s_pos s)) (Some In))) w). split; [by destruct (s_last s) as [[]|]|].
  split; [|done]. eexists. split; [by eapply set_stream_lookup|]. simpl. split_and!; [done|done|].
  unfold content in *. simpl. by eapply drop_S' in Hb || (erewrite (drop_S _ b) in H4 by done; congruence).
Qed.
Lemma fgetc_end h w : reads h [] w ->
  exists w', fgetc h w = Ok (EOF, w') /\ reads h [] w' /\ disk w' = disk w.
Proof.
  intros (s & H1 & H2 & H3 & H4). unfold fgetc, with_stream. rewrite H1, H2.
  assert (content w (s_path s) !! s_pos s = None) as Hb.
  { rewrite <- (Nat.add_0_r (s_pos s)), <- lookup_drop, H4. done. }
  rewrite Hb. exists (set_stream h (Some (moved s (s_pos s) None)) w). split; [by destruct (s_last s) as [[]|]|].
  split; [|done]. eexists. split; [by eapply set_stream_lookup|]. simpl. split_and!; [done|done|]. done.
Qed.

Definition read_step (h : nat) : list Z * world -> res ((list Z * world) + (list Z * Z * world)) :=
  fun '(buffer, w) =>
    let* (ch, w) := fgetc h w in
    if decide (ch <> newline /\ ch <> EOF) then Ok (inl (buffer ++ [to_char ch], w)) else Ok (inr (buffer, ch, w)).

Lemma read_step_loop h rest : Forall is_byte rest -> forall fuel buffer w, (length rest < fuel)%nat -> reads h rest w ->
  exists w', loop fuel (read_step h) (buffer, w) =
    Ok (buffer ++ (to_char <$> (split_line rest).1), match (split_line rest).2 with None => EOF | _ => newline end, w') /\
    reads h (default [] (split_line rest).2) w' /\ disk w' = disk w.
Proof.
  induction rest as [|b rest IH]; intros Hb fuel buffer w Hf Hr; (destruct fuel as [|fuel]; [simpl in Hf; lia|]); cbn [loop].
  - destruct (fgetc_end h w Hr) as (w' & E & Hr' & Hd). unfold read_step at 1. rewrite E. cbn [bind].
    rewrite decide_False by (unfold EOF; lia). simpl. rewrite app_nil_r. by exists w'.
  - inversion Hb as [|?? Hb1 Hb2]; subst. destruct (fgetc_byte h b rest w Hr) as (w' & E & Hr' & Hd).
    unfold read_step at 1. rewrite E. cbn [bind]. simpl split_line. destruct (decide (b = newline)) as [->|Hne].
    + rewrite decide_False by tauto. simpl. rewrite app_nil_r. by exists w'.
    + rewrite decide_True by (unfold is_byte, EOF in *; lia).
      destruct (IH Hb2 fuel (buffer ++ [to_char b]) w') as (w2 & E2 & Hr2 & Hd2); [simpl in Hf; lia|done|].
      cbn [bind]. rewrite E2. destruct (split_line rest) as [x r]. simpl in *. exists w2. rewrite <- app_assoc. split_and!; [done|done|congruence].
Qed.

Lemma read_line_ok f h rest w : f_file f = Some h -> Forall is_byte rest -> reads h rest w ->
  exists w', read_line f w = Ok (match rest with [] => None | _ => Some (to_char <$> (split_line rest).1) end, w') /\
    reads h (default [] (split_line rest).2) w' /\ disk w' = disk w.
Proof.
  intros Hf Hb Hr. unfold read_line, read_loop. rewrite Hf, (reads_left h rest) by done.
  destruct (read_step_loop h rest Hb (S (length rest)) [] w) as (w' & E & Hr' & Hd); [lia|done|].
  change (loop _ _ _) with (loop (S (length rest)) (read_step h) ([], w)). rewrite E. cbn [bind].
  exists w'. split; [|done]. destruct rest as [|b rest].
  - done.
  - rewrite decide_False; [done|]. simpl. destruct (decide (b = newline)) as [->|Hne].
    + simpl. unfold newline, EOF. lia.
    + destruct (split_line rest) as [x r]. simpl. intros [_ ?]. done.
Qed.

Definition lines_step (f : file) : list (list Z) * world -> res ((list (list Z) * world) + (list (list Z) * world)) :=
  fun '(lines, w) =>
    let* (line, w) := read_line f w in
    match line with Some l => Ok (inl (lines ++ [l], w)) | None => Ok (inr (lines, w)) end.

Lemma split_line_shorter rest r : (split_line rest).2 = Some r -> (length r < length rest)%nat.
Proof.
  destruct (split_line rest) as [x o] eqn:E. simpl. intros ->. apply split_line_app in E as [-> _].
  rewrite app_length. simpl. lia.
Qed.

Lemma read_lines_loop f h : f_file f = Some h -> forall fuel rest acc w, Forall is_byte rest -> (length rest < fuel)%nat -> reads h rest w ->
  exists ls w', loop fuel (lines_step f) (acc, w) = Ok (acc ++ ls, w') /\ is_lines (to_char <$> rest) ls /\
    reads h [] w' /\ disk w' = disk w.
Proof.
  intros Hf fuel. induction fuel as [|fuel IH]; intros rest acc w Hb Hlen Hr; [lia|]. cbn [loop].
  destruct (read_line_ok f h rest w Hf Hb Hr) as (w1 & E & Hr1 & Hd1). unfold lines_step at 1. rewrite E. cbn [bind].
  destruct rest as [|b rest0] eqn:Er.
  - exists [], w1. rewrite app_nil_r. split_and!; [done|apply is_lines_nil|done|done].
  - rewrite <- Er in *. cbn [bind]. destruct (split_line rest) as [x o] eqn:Es.
    destruct o as [r|].
    + pose proof (split_line_shorter rest r) as Hs. rewrite Es in Hs. specialize (Hs eq_refl).
      apply split_line_app in Es as [Erest Hx]. assert (Forall is_byte x /\ Forall is_byte r) as [Hbx Hbr].
      { rewrite Erest in Hb. apply Forall_app in Hb as [? Hb]. by inversion Hb. }
      destruct (IH r (acc ++ [to_char <$> x]) w1) as (ls & w2 & E2 & Hls & Hr2 & Hd2); [done|lia|done|].
      simpl. rewrite E2. exists ((to_char <$> x) :: ls), w2. rewrite <- app_assoc. split_and!; [done| |done|congruence].
      rewrite Erest, fmap_app. simpl. apply is_lines_cons; [by apply no_newline|done].
    + apply split_line_none in Es as [<- Hx]. simpl in *.
      destruct (IH [] (acc ++ [to_char <$> rest]) w1) as (ls & w2 & E2 & Hls & Hr2 & Hd2); [done| |done|].
      { rewrite Er in Hlen. simpl in *. lia. }
      rewrite E2. assert (ls = []) as -> by (eapply is_lines_unique; [exact Hls|apply is_lines_nil]).
      exists [to_char <$> rest], w2. rewrite app_nil_r. split_and!; [done| |done|congruence].
      apply is_lines_last; [by apply no_newline|]. by rewrite Er.
Qed.
Lemma read_lines_ok f h rest w : f_file f = Some h -> Forall is_byte rest -> reads h rest w ->
  exists ls w', read_lines f w = Ok (ls, w') /\ is_lines (to_char <$> rest) ls /\ reads h [] w' /\ disk w' = disk w.
Proof.
  intros Hf Hb Hr. destruct (read_lines_loop f h Hf (S (left_over h w)) rest [] w) as (ls & w' & E & H); [done| |done|].
  { rewrite (reads_left h rest) by done. lia. }
  exists ls, w'. split; [|done]. unfold read_lines. rewrite Hf. exact E.
Qed.

(** *** Writing chars *)
(** The stream [h] appends to file [p], which holds [l]; [r] is the room. *)
Definition writes (h p : nat) (l : list Z) (r : option nat) (w : world) : Prop :=
  exists s, streams w !! h = Some (Some s) /\ s_write s = true /\ s_last s <> Some In /\ s_path s = p /\
    disk w p = Some l /\ (s_append s = true \/ s_pos s = length l) /\ room w = r.
Definition enough (n : nat) (r : option nat) : Prop := match r with None => True | Some k => (n <= k)%nat end.

Lemma write_at_end l b : write_at (length l) b l = l ++ [b].
Proof. unfold write_at. rewrite Nat.sub_diag, app_nil_r, firstn_all, drop_ge; [done|lia]. Qed.

Lemma fputc_ok h p l r c w : writes h p l r w -> enough 1 r ->
  exists w', fputc c h w = Ok (to_byte c, w') /\ writes h p (l ++ [to_byte c]) (pred <$> r) w'.
Proof.
  intros (s & H1 & H2 & H3 & H4 & H5 & H6 & H7) Hr. unfold fputc, with_stream, content. rewrite H1, H2, H4, H5, H7. simpl default.
  assert ((if s_append s then length l else s_pos s) = length l) as -> by (destruct (s_append s); [done|by destruct H6]).
  rewrite write_at_end. eexists. split.
  - destruct (s_last s) as [[]|]; [done|..]; (destruct r as [[|k]|]; simpl in Hr; [lia|reflexivity..]).
  - eexists. simpl. split; [apply list_lookup_insert; by eapply lookup_lt_Some|]. split_and!; [done|done|done| |simpl|done].
    + by rewrite decide_True.
    + right. rewrite app_length. simpl. lia.
Qed.
Lemma to_byte_eof c : to_byte c <> EOF.
Proof. unfold to_byte, EOF. pose proof (Z.mod_pos_bound c 256). lia. Qed.

Lemma fwrite_ok h p cs : forall l r w, writes h p l r w -> enough (length cs) r ->
  exists w', fwrite cs h w = Ok (length cs, w') /\ exists r', writes h p (l ++ (to_byte <$> cs)) r' w'.
Proof.
  induction cs as [|c cs IH]; intros l r w Hw Hr; simpl.
  - exists w. rewrite app_nil_r. split; [done|]. by exists r.
  - destruct (fputc_ok h p l r c w Hw) as (w1 & -> & Hw1); [destruct r; simpl in *; [lia|done]|]. simpl.
    rewrite decide_False by apply to_byte_eof. destruct (IH _ _ _ Hw1) as (w2 & -> & r' & Hw2).
    { destruct r; simpl in *; [lia|done]. }
    exists w2. simpl. split; [done|]. exists r'. by rewrite <- app_assoc in Hw2.
Qed.
Lemma fputs_ok h p cs : 0 ∉ cs -> forall l r w, writes h p l r w -> enough (length cs) r ->
  exists w', fputs (cs ++ [0]) h w = Ok (true, w') /\ exists r', writes h p (l ++ (to_byte <$> cs)) r' w'.
Proof.
  induction cs as [|c cs IH]; intros Hz l r w Hw Hr; simpl.
  - exists w. rewrite app_nil_r. split; [done|]. by exists r.
  - rewrite not_elem_of_cons in Hz. rewrite decide_False by (destruct Hz; congruence).
    destruct (fputc_ok h p l r c w Hw) as (w1 & -> & Hw1); [destruct r; simpl in *; [lia|done]|]. simpl.
    rewrite decide_False by apply to_byte_eof. destruct (IH (proj2 Hz) _ _ _ Hw1) as (w2 & -> & r' & Hw2).
    { destruct r; simpl in *; [lia|done]. }
    exists w2. simpl. split; [done|]. exists r'. by rewrite <- app_assoc in Hw2.
Qed.
Lemma put_chars_ok h p cs extra : forall l r w, writes h p l r w -> enough (length cs) r ->
  exists w', put_chars (cs ++ extra) (length cs) h w = Ok (true, w') /\ exists r', writes h p (l ++ (to_byte <$> cs)) r' w'.
Proof.
  induction cs as [|c cs IH]; intros l r w Hw Hr; simpl.
  - exists w. rewrite app_nil_r. split; [done|]. by exists r.
  - destruct (fputc_ok h p l r c w Hw) as (w1 & -> & Hw1); [destruct r; simpl in *; [lia|done]|]. simpl.
    rewrite decide_False by apply to_byte_eof. destruct (IH _ _ _ Hw1) as (w2 & -> & r' & Hw2).
    { destruct r; simpl in *; [lia|done]. }
    exists w2. simpl. split; [done|]. exists r'. by rewrite <- app_assoc in Hw2.
Qed.

Lemma to_char_to_byte c : is_char c -> to_char (to_byte c) = c.
Proof.
  unfold is_char, to_char, to_byte. intros H. destruct (decide (0 <= c)).
  - rewrite Z.mod_small by lia. rewrite decide_True; lia.
  - replace (c mod 256) with (c + 256).
    + rewrite decide_False; lia.
    + apply Z.mod_unique_pos with (-1); lia.
Qed.
Lemma to_byte_is_byte c : is_byte (to_byte c).
Proof. unfold is_byte, to_byte. apply Z.mod_pos_bound. lia. Qed.

(** ** Histories of File objects *)
Definition is_open (w : world) (h : nat) : Prop := exists s, streams w !! h = Some (Some s).

(** Every File that is not null owns an open stream, every open stream has one owner, and nothing has
    been written. *)
Record finv (st : fstate) : Prop := {
  fi_open : forall i f h, vars st i = Some f -> f_file f = Some h -> is_open (the_world st) h;
  fi_one : forall i j f g h, vars st i = Some f -> vars st j = Some g -> f_file f = Some h -> f_file g = Some h -> i = j;
  fi_owner : forall h, is_open (the_world st) h -> exists i f, vars st i = Some f /\ f_file f = Some h;
  fi_read : forall h s, streams (the_world st) !! h = Some (Some s) -> s_last s <> Some Out }.

Lemma finv_world st w : finv st ->
  (forall h, is_open w h <-> is_open (the_world st) h) ->
  (forall h s, streams w !! h = Some (Some s) -> s_last s <> Some Out) ->
  finv (FState (vars st) w).
Proof.
  intros [H1 H2 H3 H4] Ho Hr. split; simpl.
  - intros. apply Ho. eauto.
  - done.
  - intros h Hh. by apply H3, Ho.
  - done.
Qed.

(** Replace the File in a variable by one with the same stream, or any other change of handles that is
    one-to-one. *)
Lemma set_var_eq i f v : set_var i f v i = f.
Proof. unfold set_var. by rewrite decide_True. Qed.
Lemma set_var_ne i j f v : j <> i -> set_var i f v j = v j.
Proof. intros. unfold set_var. by rewrite decide_False. Qed.

Lemma is_open_set h s w h' : is_open w h -> is_open (set_stream h s w) h' <-> (if decide (h' = h) then is_Some s else is_open w h').
Proof.
  intros [s0 Hs]. unfold is_open. simpl. case_decide as E.
  - subst. rewrite list_lookup_insert by (by eapply lookup_lt_Some). split.
    + intros [s' ?]. simplify_eq. by eexists.
    + intros [s' ->]. by exists s'.
  - by rewrite list_lookup_insert_ne.
Qed.

Lemma finv_like st h s s' : finv st -> streams (the_world st) !! h = Some (Some s) -> like s s' ->
  finv (FState (vars st) (set_stream h (Some s') (the_world st))).
Proof.
  intros Hi Hs Hl. apply finv_world; [done|..].
  - intros h'. rewrite is_open_set by (by eexists). case_decide; [|done]. subst. split; [by eexists|by eexists].
  - intros h' s2 E. simpl in E. destruct (decide (h' = h)) as [->|].
    + rewrite list_lookup_insert in E by (by eapply lookup_lt_Some). simplify_eq. apply Hl.
    + rewrite list_lookup_insert_ne in E by done. by eapply fi_read.
Qed.

(** Closing the stream that variable [i] owns. *)
Lemma finv_close st i f h g : finv st -> vars st i = Some f -> f_file f = Some h ->
  match g with Some g => f_file g = None | None => True end ->
  finv (FState (set_var i g (vars st)) (set_stream h None (the_world st))).
Proof.
  intros Hi Hv Hf Hg. pose proof (fi_open _ Hi _ _ _ Hv Hf) as Ho. split; simpl.
  - intros j f' h' Hj Hf'. destruct (decide (j = i)) as [->|Hne].
    + rewrite set_var_eq in Hj. subst. congruence.
    + rewrite set_var_ne in Hj by done. rewrite is_open_set by done. rewrite decide_False; [by eapply fi_open|].
      intros ->. apply Hne. by eapply (fi_one _ Hi).
  - intros j k f1 f2 h' Hj Hk H1 H2. destruct (decide (j = i)) as [->|Hne], (decide (k = i)) as [->|Hne2]; [done|..].
    + rewrite set_var_eq in Hj. subst. congruence.
    + rewrite set_var_eq in Hk. subst. congruence.
    + rewrite set_var_ne in Hj, Hk by done. by eapply (fi_one _ Hi).
  - intros h' Hh. rewrite is_open_set in Hh by done. case_decide as E; [by destruct Hh|].
    destruct (fi_owner _ Hi _ Hh) as (j & f' & Hj & Hf'). exists j, f'. split; [|done].
    rewrite set_var_ne; [done|]. intros ->. congruence.
  - intros h' s E. destruct (decide (h' = h)) as [->|].
    + destruct Ho as [s0 Ho]. rewrite list_lookup_insert in E by (by eapply lookup_lt_Some). done.
    + rewrite list_lookup_insert_ne in E by done. by eapply fi_read.
Qed.

(** A variable that owns nothing can change to another such, or vanish, or appear. *)
Lemma finv_null st i g : finv st -> (forall f h, vars st i = Some f -> f_file f <> Some h) ->
  match g with Some g => f_file g = None | None => True end ->
  finv (FState (set_var i g (vars st)) (the_world st)).
Proof.
  intros Hi Hn Hg. split; simpl.
  - intros j f' h' Hj Hf'. destruct (decide (j = i)) as [->|Hne].
    + rewrite set_var_eq in Hj. subst. congruence.
    + rewrite set_var_ne in Hj by done. by eapply fi_open.
  - intros j k f1 f2 h' Hj Hk H1 H2. destruct (decide (j = i)) as [->|Hne], (decide (k = i)) as [->|Hne2]; [done|..].
    + rewrite set_var_eq in Hj. subst. congruence.
    + rewrite set_var_eq in Hk. subst. congruence.
    + rewrite set_var_ne in Hj, Hk by done. by eapply (fi_one _ Hi).
  - intros h' Hh. destruct (fi_owner _ Hi _ Hh) as (j & f' & Hj & Hf'). exists j, f'. split; [|done].
    rewrite set_var_ne; [done|]. intros ->. by eapply Hn.
  - by apply fi_read.
Qed.

(** The stream goes from variable [j] to variable [i]. *)
Lemma finv_hand_over st i j g f1 f2 : finv st -> i <> j -> vars st j = Some g ->
  (forall f h, vars st i = Some f -> f_file f <> Some h) ->
  f_file f1 = f_file g -> f_file f2 = None ->
  finv (FState (set_var i (Some f1) (set_var j (Some f2) (vars st))) (the_world st)).
Proof.
  intros Hi Hne Hj Hn E1 E2.
  assert (forall k f, set_var i (Some f1) (set_var j (Some f2) (vars st)) k = Some f ->
    forall h, f_file f = Some h -> (k = i /\ f_file g = Some h) \/ (k <> i /\ k <> j /\ vars st k = Some f)) as Hv.
  { intros k f Hk h Hf. destruct (decide (k = i)) as [->|].
    - rewrite set_var_eq in Hk. simplify_eq. left. split; [done|congruence].
    - rewrite set_var_ne in Hk by done. destruct (decide (k = j)) as [->|].
      + rewrite set_var_eq in Hk. by simplify_eq.
      + rewrite set_var_ne in Hk by done. right. done. }
  split; simpl.
  - intros k f h Hk Hf. destruct (Hv k f Hk h Hf) as [[-> ?]|(? & ? & ?)]; by eapply fi_open.
  - intros k1 k2 f f' h Hk1 Hk2 Hf Hf'. destruct (Hv _ _ Hk1 _ Hf) as [[-> ?]|(? & ? & ?)], (Hv _ _ Hk2 _ Hf') as [[-> ?]|(? & ? & ?)].
    + done.
    + assert (j = k2) by (by eapply (fi_one _ Hi)). congruence.
    + assert (k1 = j) by (by eapply (fi_one _ Hi)). congruence.
    + by eapply (fi_one _ Hi).
  - intros h Hh. destruct (fi_owner _ Hi _ Hh) as (k & f & Hk & Hf). destruct (decide (k = j)) as [->|Hkj].
    + exists i, f1. rewrite set_var_eq. split; [done|]. congruence.
    + exists k, f. split; [|done]. assert (k <> i) by (intros ->; by eapply Hn).
      by rewrite !set_var_ne.
  - by apply fi_read.
Qed.

Lemma fopen_new p mode w h w' : fopen p mode w = (Some h, w') ->
  h = length (streams w) /\ exists s, streams w' = streams w ++ [Some s] /\ s_last s = None.
Proof.
  unfold fopen. destruct mode as [|m mode]; [done|].
  repeat match goal with |- context [match ?x with _ => _ end] => is_var x; destruct x end; try done;
  repeat case_match; intros; simplify_eq/=; (split; [done|]); eexists; (split; [reflexivity|done]).
Qed.
Lemma fopen_none p mode w w' : fopen p mode w = (None, w') -> w' = w.
Proof.
  unfold fopen. destruct mode as [|m mode]; [congruence|].
  repeat match goal with |- context [match ?x with _ => _ end] => is_var x; destruct x end; try congruence;
  repeat case_match; intros; simplify_eq/=; done.
Qed.

Lemma finv_open st i p mode h w' f : finv st -> vars st i = None -> fopen p mode (the_world st) = (Some h, w') ->
  f_file f = Some h -> finv (FState (set_var i (Some f) (vars st)) w').
Proof.
  intros Hi Hv E Hf. apply fopen_new in E as (-> & s & Es & El).
  assert (forall h', is_open w' h' <-> h' = length (streams (the_world st)) \/ is_open (the_world st) h') as Ho.
  { intros h'. unfold is_open. rewrite Es. split.
    - intros [s' H]. apply lookup_app_Some in H as [H|[Hl H]]; [right; by exists s'|].
      apply list_lookup_singleton_Some in H as [Hz _]. left. lia.
    - intros [->|[s' H]]; [exists s; apply list_lookup_middle; done|]. exists s'. by apply lookup_app_l_Some. }
  assert (forall h', is_open (the_world st) h' -> h' <> length (streams (the_world st))) as Hlt.
  { intros h' [s' H] ->. apply lookup_lt_Some in H. lia. }
  split; simpl.
  - intros j f' h' Hj Hf'. apply Ho. destruct (decide (j = i)) as [->|Hne].
    + rewrite set_var_eq in Hj. simplify_eq. left. congruence.
    + rewrite set_var_ne in Hj by done. right. by eapply fi_open.
  - intros j k f1 f2 h' Hj Hk H1 H2. destruct (decide (j = i)) as [->|Hne], (decide (k = i)) as [->|Hne2]; [done|..].
    + rewrite set_var_eq in Hj. rewrite set_var_ne in Hk by done. simplify_eq. pose proof (fi_open _ Hi _ _ _ Hk H2) as Hop.
      apply Hlt in Hop. congruence.
    + rewrite set_var_eq in Hk. rewrite set_var_ne in Hj by done. simplify_eq. pose proof (fi_open _ Hi _ _ _ Hj H1) as Hop.
      apply Hlt in Hop. congruence.
    + rewrite set_var_ne in Hj, Hk by done. by eapply (fi_one _ Hi).
  - intros h' Hh. apply Ho in Hh as [->|Hh].
    + exists i, f. by rewrite set_var_eq.
    + destruct (fi_owner _ Hi _ Hh) as (j & f' & Hj & Hf'). exists j, f'. split; [|done]. rewrite set_var_ne; [done|]. congruence.
  - intros h' s' H. rewrite Es in H. apply lookup_app_Some in H as [H|[Hl H]]; [by eapply fi_read|].
    apply list_lookup_singleton_Some in H as [_ H]. simplify_eq. by rewrite El.
Qed.

Lemma flush_inv st i f : finv st -> vars st i = Some f ->
  exists w', flush f (the_world st) = Ok w' /\ finv (FState (vars st) w').
Proof.
  intros Hi Hv. unfold flush, fflush, with_stream. destruct (f_file f) as [h|] eqn:Hf.
  - destruct (fi_open _ Hi _ _ _ Hv Hf) as [s Hs]. rewrite Hs. eexists. split; [done|]. apply finv_like with s; [done|done|].
    split_and!; try done. simpl. destruct (s_last s) as [[]|]; done.
  - eexists. split; [done|]. apply finv_world; [done|..].
    + intros h. unfold is_open. simpl. rewrite list_lookup_fmap. destruct (streams (the_world st) !! h) as [[s|]|]; simpl.
      * split; by eexists.
      * split; by intros [? ?].
      * split; by intros [? ?].
    + intros h s. simpl. rewrite list_lookup_fmap. destruct (streams (the_world st) !! h) as [[s0|]|] eqn:E; simpl; intros; simplify_eq.
      simpl. destruct (s_last s0) as [[]|]; done.
Qed.

Lemma null_read_line f w : f_file f = None -> read_line f w = Ok (None, w).
Proof. intros H. unfold read_line. by rewrite H. Qed.
Lemma null_read_lines f w : f_file f = None -> read_lines f w = Ok ([], w).
Proof. intros H. unfold read_lines. rewrite H. cbn [loop]. by rewrite null_read_line. Qed.

(** An assignment to a File that has an open stream leaks it. *)
Definition no_leak (o : fop) (st : fstate) : Prop :=
  match o with
  | FAssign i j => i = j \/ forall f, vars st i = Some f -> f_file f = None
  | _ => True
  end.

Lemma step_inv bad o st r : (forall h, bad h = false) -> finv st -> no_leak o st -> f_step bad o st = Some r ->
  exists st', r = Ok st' /\ finv st'.
Proof.
  intros Hb Hi Hn E. destruct o as [i p mode|i j|i j|i|i|i|i|i]; simpl in E.
  - destruct (vars st i) as [f|] eqn:Hv; [done|]. simplify_eq. unfold file_open.
    destruct (fopen p mode (the_world st)) as [[h|] w'] eqn:Eo; simpl.
    + eexists. split; [done|]. by eapply finv_open.
    + apply fopen_none in Eo as ->. eexists. split; [done|]. apply finv_null; [done| |done]. congruence.
  - destruct (vars st i) eqn:Hv; [done|]. destruct (vars st j) as [g|] eqn:Hj; [|done]. simpl in E. simplify_eq.
    eexists. split; [done|]. eapply finv_hand_over; [done|congruence|done|congruence|done|done].
  - destruct (vars st i) as [f|] eqn:Hv; [|done]. destruct (vars st j) as [g|] eqn:Hj; [|done]. simpl in E.
    case_decide as Eij; simplify_eq; (eexists; split; [done|]); [done|]. destruct Hn as [?|Hn]; [done|].
    eapply finv_hand_over; [done|done|done| |done|done]. intros f' h Hf'. rewrite Hv in Hf'. simplify_eq.
    rewrite (Hn f' Hv). done.
  - destruct (vars st i) as [f|] eqn:Hv; [|done]. simplify_eq. unfold close. destruct (f_file f) as [h|] eqn:Hf; simpl.
    + unfold fclose. destruct (fi_open _ Hi _ _ _ Hv Hf) as [s Hs]. rewrite Hs. simpl. rewrite Hb. simpl.
      eexists. split; [done|]. by eapply finv_close.
    + eexists. split; [done|]. eapply finv_null; [done| |done]. intros. congruence.
  - destruct (vars st i) as [f|] eqn:Hv; [|done]. simplify_eq. unfold file_destroy. destruct (f_file f) as [h|] eqn:Hf; simpl.
    + unfold fclose. destruct (fi_open _ Hi _ _ _ Hv Hf) as [s Hs]. rewrite Hs. simpl.
      eexists. split; [done|]. by eapply finv_close.
    + eexists. split; [done|]. eapply finv_null; [done| |done]. intros. congruence.
  - destruct (vars st i) as [f|] eqn:Hv; [|done]. simplify_eq. destruct (f_file f) as [h|] eqn:Hf.
    + destruct (fi_open _ Hi _ _ _ Hv Hf) as [s Hs]. destruct (read_line_any f (the_world st) h s) as (l & s' & -> & Hl & _ & _); [done|done|by eapply fi_read|].
      eexists. split; [done|]. by eapply finv_like.
    + rewrite null_read_line by done. eexists. split; [done|]. by destruct st.
  - destruct (vars st i) as [f|] eqn:Hv; [|done]. simplify_eq. destruct (f_file f) as [h|] eqn:Hf.
    + destruct (fi_open _ Hi _ _ _ Hv Hf) as [s Hs]. destruct (read_lines_any f (the_world st) h s) as (l & s' & -> & Hl); [done|done|by eapply fi_read|].
      eexists. split; [done|]. by eapply finv_like.
    + rewrite null_read_lines by done. eexists. split; [done|]. by destruct st.
  - destruct (vars st i) as [f|] eqn:Hv; [|done]. simplify_eq. destruct (flush_inv st i f Hi Hv) as (w' & -> & H).
    eexists. split; [done|]. done.
Qed.

(** *** _mode *)
Definition modeless (st : fstate) : Prop := forall i f, vars st i = Some f -> f_mode f = replicate 8 None.

Lemma step_modeless bad o st st' : modeless st -> f_step bad o st = Some (Ok st') -> modeless st'.
Proof.
  intros Hm E.
  assert (forall i g w, match g with Some g => f_mode g = replicate 8 None | None => True end -> modeless (FState (set_var i g (vars st)) w)) as Hs.
  { intros i g w Hg j f Hj. simpl in Hj. destruct (decide (j = i)) as [->|].
    - rewrite set_var_eq in Hj. by subst.
    - rewrite set_var_ne in Hj by done. by eapply Hm. }
  destruct o as [i p mode|i j|i j|i|i|i|i|i]; simpl in E.
  - destruct (vars st i) as [f|] eqn:Hv; [done|]. unfold file_open in E.
    destruct (fopen p mode (the_world st)) as [[h|] w'] eqn:Eo; simpl in E; simplify_eq; by apply Hs.
  - destruct (vars st i) eqn:Hv; [done|]. destruct (vars st j) as [g|] eqn:Hj; [|done]. simpl in E. simplify_eq.
    intros k f Hk. simpl in Hk. destruct (decide (k = i)) as [->|].
    + rewrite set_var_eq in Hk. by simplify_eq.
    + rewrite set_var_ne in Hk by done. eapply (Hs j (Some (File None (f_mode g))) (the_world st)); [|done]. exact (Hm _ _ Hj).
  - destruct (vars st i) as [f|] eqn:Hv; [|done]. destruct (vars st j) as [g|] eqn:Hj; [|done]. simpl in E.
    case_decide as Eij; simplify_eq; [done|]. intros k f' Hk. simpl in Hk. destruct (decide (k = i)) as [->|].
    + rewrite set_var_eq in Hk. simplify_eq. exact (Hm _ _ Hv).
    + rewrite set_var_ne in Hk by done. eapply (Hs j (Some (File None (f_mode g))) (the_world st)); [|done]. exact (Hm _ _ Hj).
  - destruct (vars st i) as [f|] eqn:Hv; [|done]. unfold close in E. destruct (f_file f) as [h|] eqn:Hf; simpl in E.
    + destruct (fclose bad h (the_world st)) as [[[] w']| | |]; simpl in E; simplify_eq; apply Hs; exact (Hm _ _ Hv).
    + simplify_eq. apply Hs. exact (Hm _ _ Hv).
  - destruct (vars st i) as [f|] eqn:Hv; [|done]. destruct (file_destroy bad f (the_world st)); simpl in E; simplify_eq. by apply Hs.
  - destruct (vars st i) as [f|] eqn:Hv; [|done]. destruct (read_line f (the_world st)) as [[]| | |]; simpl in E; simplify_eq. exact Hm.
  - destruct (vars st i) as [f|] eqn:Hv; [|done]. destruct (read_lines f (the_world st)) as [[]| | |]; simpl in E; simplify_eq. exact Hm.
  - destruct (vars st i) as [f|] eqn:Hv; [|done]. destruct (flush f (the_world st)); simpl in E; simplify_eq. exact Hm.
Qed.
