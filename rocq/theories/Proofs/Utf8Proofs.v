(** The UTF-8 functions on whole strings. *)
From Verif Require Import Base.Cpp Model.Utf8 Spec.Utf8Spec Proofs.Utf8Decode.
Set Default Proof Using "Type".
Local Open Scope Z_scope.
Ltac Zify.zify_post_hook ::= idtac.

(** [c] and [bs] are the first piece of [s]. *)
Definition first_piece (s : list Z) (c : option Z) (bs : list Z) : Prop :=
  match c with
  | Some cp => scalar_value cp /\ bs = encode cp
  | None => (exists b, bs = [b]) /\ forall cp t, scalar_value cp -> s <> encode cp ++ t
  end.

Lemma first_piece_nonempty s c bs : first_piece s c bs -> (1 <= length bs)%nat.
Proof.
  destruct c as [cp|]; cbn.
  - intros [_ ->]. apply encode_length.
  - intros [[b ->] _]. cbn. lia.
Qed.

Lemma pieces_inv s ps c bs rest :
  s = bs ++ rest -> first_piece s c bs -> pieces s ps -> exists ps', ps = (c, bs) :: ps' /\ pieces rest ps'.
Proof.
  intros Hs Hf Hp. pose proof (first_piece_nonempty _ _ _ Hf) as Hne. destruct c as [cp|]; cbn in Hf.
  - destruct Hf as [Hsc ->]. inversion Hp as [Hnil|cp' s' ps' Hsc' Hp' Heq|b s' ps' Hno Hp' Heq]; subst.
    + destruct (encode cp); [cbn in Hne; lia|done].
    + assert (cp' = cp) as -> by (eapply encode_inj; eauto). apply app_inv_head in Heq as <-. eauto.
    + exfalso. exact (Hno cp rest Hsc Heq).
  - destruct Hf as [[b ->] Hno]. inversion Hp as [Hnil|cp' s' ps' Hsc' Hp' Heq|b' s' ps' Hno' Hp' Heq]; subst.
    + done.
    + exfalso. exact (Hno cp' s' Hsc' (eq_sym Heq)).
    + injection Heq as <- <-. eauto.
Qed.

Lemma pieces_cons s ps c bs rest : s = bs ++ rest -> first_piece s c bs -> pieces rest ps -> pieces s ((c, bs) :: ps).
Proof.
  intros -> Hf Hp. destruct c as [cp|]; cbn in Hf.
  - destruct Hf as [Hsc ->]. by constructor.
  - destruct Hf as [[b ->] Hno]. by constructor.
Qed.

Lemma drop_4 (buf : list Z) b : (b + 4 <= length buf)%nat -> exists s0 s1 s2 s3 t,
  buf !! b = Some s0 /\ buf !! (b + 1)%nat = Some s1 /\ buf !! (b + 2)%nat = Some s2 /\ buf !! (b + 3)%nat = Some s3 /\
  drop b buf = [s0; s1; s2; s3] ++ t.
Proof.
  intros Hl.
  destruct (lookup_lt_is_Some_2 buf b) as [s0 H0]; [lia|]. destruct (lookup_lt_is_Some_2 buf (b + 1)) as [s1 H1]; [lia|].
  destruct (lookup_lt_is_Some_2 buf (b + 2)) as [s2 H2]; [lia|]. destruct (lookup_lt_is_Some_2 buf (b + 3)) as [s3 H3]; [lia|].
  exists s0, s1, s2, s3, (drop (b + 4) buf). split_and!; try done.
  rewrite (drop_S _ _ _ H0). rewrite Nat.add_1_r in H1. rewrite (drop_S _ _ _ H1).
  replace (b + 2)%nat with (S (S b)) in H2 by lia. rewrite (drop_S _ _ _ H2).
  replace (b + 3)%nat with (S (S (S b))) in H3 by lia. rewrite (drop_S _ _ _ H3).
  by replace (b + 4)%nat with (S (S (S (S b)))) by lia.
Qed.

Section piece.
  Context {St : Type} (f : Z -> nat -> nat -> St -> res (bool * St)).

  Lemma decode_piece buf b s j : Forall is_byte buf -> (b + 4 <= length buf)%nat -> s <> [] ->
    drop b buf = s ++ replicate j 0 ->
    exists c bs rest, s = bs ++ rest /\ first_piece s c bs /\
    forall q st, decode f buf b q st =
      let* (r, st) := f (default invalid_code_point c) q (length bs) st in
      Ok (if (r : bool) then Some (b + length bs)%nat else None, st).
  Proof.
    intros Hby Hlen Hs Hdrop. destruct (drop_4 buf b Hlen) as (s0 & s1 & s2 & s3 & t & H0 & H1 & H2 & H3 & Hd).
    rewrite Forall_lookup in Hby.
    pose proof (Hby _ _ H0) as B0. pose proof (Hby _ _ H1) as B1. pose proof (Hby _ _ H2) as B2. pose proof (Hby _ _ H3) as B3.
    pose proof (utf8_decode_eq buf b s0 s1 s2 s3 H0 H1 H2 H3 B0 B1 B2 B3) as Hdec.
    pose proof (decode_cases s0 s1 s2 s3 B0 B1 B2 B3) as Hcase. cbv zeta in Hdec, Hcase.
    set (e := err _ _ _ _ _ _ _) in *. set (c := raw s0 s1 s2 s3) in *. set (len := lead_len s0) in *.
    rewrite Hdrop in Hd.
    destruct Hcase as [(He & Hl0 & Hsc & Hlen' & t' & Heq)|[He Hno]].
    - assert (Hle : (length (encode c) <= length s)%nat).
      { destruct (decide (length (encode c) <= length s)%nat) as [|Hn]; [done|]. exfalso.
        destruct s as [|x s]; [done|]. cbn [length] in Hn.
        assert (Hx : encode c !! S (length s) = Some 0).
        { destruct (lookup_lt_is_Some_2 (encode c) (S (length s)) ltac:(lia)) as [y Hy]. rewrite Hy. f_equal.
          pose proof (encode_length c) as Hel.
          assert (H4 : ([s0; s1; s2; s3] ++ t) !! S (length s) = Some y).
          { rewrite Heq, <- app_assoc. by apply lookup_app_l_Some. }
          rewrite <- Hd in H4. rewrite lookup_app_r in H4 by (cbn; lia).
          apply lookup_replicate in H4 as [-> _]. done. }
        pose proof (encode_tail _ _ _ Hsc Hx). lia. }
      exists (Some c), (encode c), (drop (length (encode c)) s). split; [|split; [done|]].
      + rewrite Heq in Hd. rewrite <- app_assoc in Hd.
        assert (Ht : take (length (encode c)) s = encode c).
        { apply (f_equal (take (length (encode c)))) in Hd. rewrite take_app in Hd. by rewrite take_app_le in Hd. }
        rewrite <- Ht at 1. by rewrite take_drop.
      + intros q st. unfold decode. rewrite Hdec. cbn [bind]. rewrite He. cbn [Z.eqb negb].
        rewrite decide_False by done. rewrite <- Hlen'. cbn [default from_option id].
        by replace (b + Z.to_nat len - b)%nat with (Z.to_nat len) by lia.
    - destruct s as [|x s]; [done|]. exists None, [x], s. split; [done|]. split.
      + split; [eauto|]. intros cp t' Hsc Heq.
        apply (Hno cp (take (4 - length (encode cp)) (t' ++ replicate j 0)) Hsc).
        apply (f_equal (take 4)) in Hd. rewrite Heq, <- app_assoc in Hd.
        change (take 4 ([s0; s1; s2; s3] ++ t)) with [s0; s1; s2; s3] in Hd. rewrite <- Hd.
        pose proof (encode_length cp) as Hel.
        rewrite take_app_ge by lia. done.
      + intros q st. unfold decode. rewrite Hdec. cbn [bind].
        assert ((e =? 0) = false) as -> by (by apply Z.eqb_neq). done.
  Qed.

  (** [f] on each piece, from position [p], until it wants to stop. *)
  Fixpoint run (ps : list (option Z * list Z)) (p : nat) (st : St) : res St :=
    match ps with
    | [] => Ok st
    | (c, bs) :: ps =>
        let* (r, st) := f (default invalid_code_point c) p (length bs) st in
        if (r : bool) then run ps (p + length bs) st else Ok st
    end.
End piece.

Lemma pieces_exist s : Forall is_byte s -> exists ps, pieces s ps.
Proof.
  remember (length s) as n eqn:Hn. revert s Hn. induction n as [n IH] using lt_wf_ind. intros s -> Hby.
  destruct (decide (s = [])) as [->|Hne]; [exists []; constructor|].
  assert (Hby' : Forall is_byte (s ++ replicate 4 0)).
  { apply Forall_app. split; [done|]. apply Forall_replicate. unfold is_byte. lia. }
  destruct (decode_piece (St := unit) (fun _ _ _ st => Ok (true, st)) (s ++ replicate 4 0) 0 s 4) as (c & bs & rest & Heq & Hf & _).
  - done.
  - rewrite app_length, replicate_length. destruct s; [done|cbn; lia].
  - done.
  - done.
  - pose proof (first_piece_nonempty _ _ _ Hf). rewrite Heq in Hby. apply Forall_app in Hby as [_ Hby].
    destruct (IH (length rest)) with (s := rest) as [ps Hps]; [rewrite Heq, app_length; lia|done|done|].
    exists ((c, bs) :: ps). by eapply pieces_cons.
Qed.

Lemma pieces_functional s ps ps' : pieces s ps -> pieces s ps' -> ps = ps'.
Proof.
  intros H. revert ps'. induction H as [|cp s ps Hsc H IH|b s ps Hno H IH]; intros ps' H'.
  - inversion H' as [Hnil|cp' s' ps'' Hsc' Hp' Heq|]; [done|].
    pose proof (encode_length cp'). destruct (encode cp'); [cbn in *; lia|done].
  - destruct (pieces_inv (encode cp ++ s) ps' (Some cp) (encode cp) s) as (ps'' & -> & Hps); [done|done|done|].
    f_equal. by apply IH.
  - destruct (pieces_inv (b :: s) ps' None [b] s) as (ps'' & -> & Hps); [done|split; [eauto|done]|done|].
    f_equal. by apply IH.
Qed.

Lemma pieces_nonnil s ps : pieces s ps -> s <> [] -> ps <> [].
Proof. intros H Hne ->. inversion H. done. Qed.

Section for_each.
  Context {St : Type} (f : Z -> nat -> nat -> St -> res (bool * St)).

  Lemma for_each_ok s ps st : Forall is_byte s -> pieces s ps -> for_each_codepoint f s st = run f ps 0 st.
  Proof.
    intros Hby Hps. unfold for_each_codepoint.
    (* The last bytes, fewer than four. *)
    assert (Htail : forall p ps st, (p <= length s)%nat -> (length s - p < 4)%nat -> pieces (drop p s) ps ->
      (if decide (p = length s) then Ok st
       else
         let* buf := for_up (length s - p) 0 (fun i buf => let* c := get s (p + i) in put buf i c) (replicate 7 0) in
         let* (_, _, st) :=
           loop (S (length s - p)) (fun '(buf_ptr, p0, st) =>
             let* (next, st) := decode f buf buf_ptr p0 st in
             match next with
             | None => Ok (inr (buf_ptr, p0, st))
             | Some e =>
                 let p1 := (p0 + (e - buf_ptr))%nat in
                 Ok (if decide (e < length s - p)%nat then inl (e, p1, st) else inr (e, p1, st))
             end) (0%nat, p, st) in
         Ok st) = run f ps p st).
    { clear ps Hps st. intros p ps st Hp Hlt Hps. case_decide as Hpe.
      { subst p. rewrite drop_all in Hps. rewrite (pieces_functional _ _ _ Hps pieces_nil). done. }
      set (k := (length s - p)%nat) in *.
      assert (Hbuf : wp (for_up k 0 (fun i buf => let* c := get s (p + i) in put buf i c) (replicate 7 0))
                        (fun buf => buf = drop p s ++ replicate (7 - k) 0)).
      { apply (wp_for_up (fun i buf => buf = take i (drop p s) ++ replicate (7 - i) 0)).
        - done.
        - intros i buf _ Hi ->. apply wp_bind. apply wp_get_lt; [lia|]. intros c Hc. apply wp_put.
          + rewrite app_length, take_length, drop_length, replicate_length. lia.
          + rewrite insert_app_r_alt by (rewrite take_length; lia). rewrite take_length, drop_length, Nat.min_l by lia.
            rewrite Nat.sub_diag. replace (7 - i)%nat with (S (7 - S i)) by lia. cbn [replicate insert list_insert].
            rewrite (take_S_r (drop p s) i c) by (by rewrite lookup_drop). by rewrite <- app_assoc.
        - intros buf ->. rewrite Nat.add_0_l, (take_ge (drop p s)) by (rewrite drop_length; lia). done. }
      destruct Hbuf as (buf & -> & Hbuf). cbn [bind].
      assert (Hbl : length buf = 7%nat) by (rewrite Hbuf, app_length, drop_length, replicate_length; lia).
      assert (Hbb : Forall is_byte buf).
      { rewrite Hbuf. apply Forall_app. split; [by apply Forall_drop|]. apply Forall_replicate. unfold is_byte. lia. }
      assert (Hloop : forall fuel b q ps st, (b < k)%nat -> (k - b < fuel)%nat -> q = (p + b)%nat -> pieces (drop q s) ps ->
        (let* (_, _, st) := loop fuel (fun '(buf_ptr, p0, st) =>
             let* (next, st) := decode f buf buf_ptr p0 st in
             match next with
             | None => Ok (inr (buf_ptr, p0, st))
             | Some e =>
                 let p1 := (p0 + (e - buf_ptr))%nat in
                 Ok (if decide (e < k)%nat then inl (e, p1, st) else inr (e, p1, st))
             end) (b, q, st) in Ok st) = run f ps q st).
      { clear ps Hps st. induction fuel as [|fuel IH]; intros b q ps st Hb Hfuel -> Hps; [lia|].
        assert (Hne : drop (p + b) s <> []).
        { intros H%(f_equal length). rewrite drop_length in H. cbn in H. lia. }
        destruct (decode_piece f buf b (drop (p + b) s) (7 - k)) as (c & bs & rest & Heq & Hf & Hdec).
        - done.
        - lia.
        - done.
        - rewrite Hbuf. rewrite drop_app_le by (rewrite drop_length; lia). by rewrite drop_drop.
        - destruct (pieces_inv _ _ _ _ _ Heq Hf Hps) as (ps' & -> & Hps'). cbn [loop run].
          rewrite Hdec. destruct (f _ _ _ _) as [[r st']| | |]; cbn [bind]; [|done|done|done].
          destruct r; cbn [bind]; [|done].
          pose proof (first_piece_nonempty _ _ _ Hf) as Hn1.
          assert (Hrest : rest = drop (p + b + length bs) s).
          { rewrite <- drop_drop, Heq, drop_app. done. }
          replace (b + length bs - b)%nat with (length bs) by lia.
          case_decide as Hc.
          + apply IH; [lia|lia|lia|]. by rewrite <- Hrest.
          + cbn [bind]. rewrite Hrest in Hps'. rewrite drop_ge in Hps' by lia.
            rewrite (pieces_functional _ _ _ Hps' pieces_nil). done. }
      apply Hloop; [lia|lia|lia|done]. }
    case_decide as H4.
    - assert (Hloop : forall fuel p ps st, (p <= length s)%nat -> (length s - p < fuel)%nat -> pieces (drop p s) ps ->
        (let* (o, st) := loop fuel (fun '(p, st) =>
          if decide (p < length s - 4 + 1)%nat then
            let* (next, st) := decode f s p p st in
            Ok (match next with None => inr (None, st) | Some p => inl (p, st) end)
          else Ok (inr (Some p, st))) (p, st) in
         match o with
         | None => Ok st
         | Some p =>
            if decide (p = length s) then Ok st
            else
              let* buf := for_up (length s - p) 0 (fun i buf => let* c := get s (p + i) in put buf i c) (replicate 7 0) in
              let* (_, _, st) :=
                loop (S (length s - p)) (fun '(buf_ptr, p0, st) =>
                  let* (next, st) := decode f buf buf_ptr p0 st in
                  match next with
                  | None => Ok (inr (buf_ptr, p0, st))
                  | Some e =>
                      let p1 := (p0 + (e - buf_ptr))%nat in
                      Ok (if decide (e < length s - p)%nat then inl (e, p1, st) else inr (e, p1, st))
                  end) (0%nat, p, st) in
              Ok st
         end) = run f ps p st).
      { clear ps Hps st. induction fuel as [|fuel IH]; intros p ps st Hp Hfuel Hps; [lia|]. cbn [loop].
        destruct (decide (p < length s - 4 + 1)%nat) as [Hlt|Hge].
        - destruct (decode_piece f s p (drop p s) 0) as (c & bs & rest & Heq & Hf & Hdec).
          + done.
          + lia.
          + intros H%(f_equal length). rewrite drop_length in H. cbn in H. lia.
          + cbn. by rewrite app_nil_r.
          + destruct (pieces_inv _ _ _ _ _ Heq Hf Hps) as (ps' & -> & Hps'). cbn [run].
            rewrite Hdec. destruct (f _ _ _ _) as [[r st']| | |]; cbn [bind]; [|done|done|done].
            destruct r; cbn [bind]; [|done].
            pose proof (first_piece_nonempty _ _ _ Hf) as Hn1.
            assert (Hrest : rest = drop (p + length bs) s) by (by rewrite <- drop_drop, Heq, drop_app).
            assert (Hll : (length bs <= length s - p)%nat).
            { apply (f_equal length) in Heq. rewrite app_length, drop_length in Heq. lia. }
            apply IH; [lia|lia|]. by rewrite <- Hrest.
        - cbn [bind]. apply Htail; [done|lia|done]. }
      apply (Hloop (S (length s)) 0%nat ps st); [lia|lia|done].
    - cbn [bind]. apply (Htail 0%nat ps st); [lia|lia|done].
  Qed.
End for_each.

Lemma pieces_concat s ps : pieces s ps -> concat (map snd ps) = s.
Proof. induction 1 as [|cp s ps Hsc H IH|b s ps Hno H IH]; cbn; [done|by rewrite IH|by rewrite IH]. Qed.

Definition widths (ps : list (option Z * list Z)) : list Z := map (fun p => cp_width (default invalid_code_point p.1)) ps.
Definition sum_widths (ps : list (option Z * list Z)) : Z := foldr Z.add 0 (widths ps).

Lemma compute_width_ok s ps : Forall is_byte s -> pieces s ps -> compute_width s = Ok (sum_widths ps).
Proof.
  intros Hby Hps. unfold compute_width. rewrite (for_each_ok _ s ps) by done.
  assert (H : forall p n, run (fun cp _ _ count => Ok (true, count + cp_width cp)) ps p n = Ok (n + sum_widths ps)).
  { clear Hps Hby. induction ps as [|[c bs] ps IH]; intros p n; unfold sum_widths, widths; cbn.
    - by rewrite Z.add_0_r.
    - rewrite IH. f_equal. unfold sum_widths, widths. lia. }
  rewrite H. by rewrite Z.add_0_l.
Qed.

Lemma code_point_index_ok s ps n : Forall is_byte s -> pieces s ps -> 0 <= n ->
  code_point_index s n = Ok (length (concat (map snd (take (Z.to_nat n) ps)))).
Proof.
  intros Hby Hps Hn. unfold code_point_index. rewrite (for_each_ok _ s ps) by done.
  pose proof (pieces_concat _ _ Hps) as Hc. revert Hc. clear Hps Hby.
  assert (H : forall p n, 0 <= n -> length s = (p + length (concat (map snd ps)))%nat ->
    exists n', run (fun _ p _ '(n, result) => Ok (if decide (n <> 0) then (true, (n - 1, result)) else (false, (n, p)))) ps p
      (n, length s) = Ok (n', (p + length (concat (map snd (take (Z.to_nat n) ps))))%nat)).
  { clear n Hn. induction ps as [|[c bs] ps IH]; intros p n Hn Hlen; cbn in Hlen |- *.
    - rewrite take_nil. cbn. exists n. by rewrite Hlen.
    - destruct (decide (n <> 0)) as [H0|H0].
      + rewrite app_length in Hlen. destruct (IH (p + length bs)%nat (n - 1)) as [n' Hr]; [lia|lia|]. rewrite Hr. exists n'.
        replace (Z.to_nat n) with (S (Z.to_nat (n - 1))) by lia. cbn. rewrite app_length. do 2 f_equal. lia.
      + exists n. replace n with 0 by lia. cbn. by rewrite Nat.add_0_r. }
  intros Hc. destruct (H 0%nat n Hn) as [n' Hr]; [by rewrite Hc|]. rewrite Hr. done.
Qed.

Lemma cp_width_range cp : 1 <= cp_width cp <= 2.
Proof. unfold cp_width. case_match; lia. Qed.
Lemma sum_widths_range ps : Z.of_nat (length ps) <= sum_widths ps <= 2 * Z.of_nat (length ps).
Proof.
  induction ps as [|[c bs] ps IH]; [done|]. unfold sum_widths, widths in *. cbn.
  pose proof (cp_width_range (default invalid_code_point c)). cbn in *. lia.
Qed.

(** Text without bytes above 127: every byte is a piece. *)
Definition ascii (s : list Z) : Prop := Forall (fun b => 0 <= b <= 127) s.
Lemma ascii_byte s : ascii s -> Forall is_byte s.
Proof. intros H. eapply Forall_impl; [exact H|]. unfold is_byte. cbn. intros. lia. Qed.
Lemma ascii_pieces s : ascii s -> pieces s (map (fun b => (Some b, [b])) s).
Proof.
  induction 1 as [|b s Hb Hs IH]; [constructor|]. cbn in Hb |- *.
  assert (He : encode b = [b]) by (unfold encode; rewrite decide_True by lia; done).
  assert (Hsc : scalar_value b) by (unfold scalar_value; lia).
  pose proof (pieces_valid b s _ Hsc IH) as Hp. by rewrite He in Hp.
Qed.
Lemma ascii_width s : ascii s -> compute_width s = Ok (Z.of_nat (length s)).
Proof.
  intros H. rewrite (compute_width_ok s _ (ascii_byte _ H) (ascii_pieces _ H)). f_equal.
  induction H as [|b s Hb Hs IH]; [done|]. unfold sum_widths, widths in *. cbn -[cp_width] in *. rewrite IH.
  assert (cp_width b = 1) as ->; [|lia]. unfold cp_width.
  assert ((4352 <=? b) = false) as -> by (apply Z.leb_gt; lia). done.
Qed.

Lemma cp_width_wide cp : cp_width cp = if decide (wide cp) then 2 else 1.
Proof.
  unfold cp_width. 
  match goal with |- 1 + (if ?b then 1 else 0) = _ => assert (Hb : b = true <-> wide cp) end.
  { unfold wide. rewrite !andb_true_iff, !orb_true_iff, !andb_true_iff, negb_true_iff, !Z.leb_le, !Z.eqb_eq, Z.eqb_neq. lia. }
  case_match; destruct (decide (wide cp)); try done; [|].
  - exfalso. tauto.
  - exfalso. destruct Hb as [_ Hb]. specialize (Hb w). congruence.
Qed.
Lemma invalid_width : cp_width invalid_code_point = 1.
Proof. vm_compute. reflexivity. Qed.
Lemma sum_widths_columns ps : sum_widths ps
  = foldr Z.add 0 ((fun p : option Z * list Z => match p.1 with Some cp => if decide (wide cp) then 2 else 1 | None => 1 end) <$> ps).
Proof.
  unfold sum_widths, widths. induction ps as [|[c bs] ps IH]; [done|]. cbn -[cp_width invalid_code_point]. cbn in IH. rewrite IH. f_equal.
  destruct c as [cp|]; cbn -[cp_width invalid_code_point]; [apply cp_width_wide|apply invalid_width].
Qed.
Lemma compute_width_columns s : Forall is_byte s -> wp (compute_width s) (columns s).
Proof.
  intros Hby. destruct (pieces_exist s Hby) as [ps Hps]. rewrite (compute_width_ok s ps) by done. apply wp_ok.
  exists ps. split; [done|]. apply sum_widths_columns.
Qed.
