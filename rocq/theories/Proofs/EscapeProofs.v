(** Proofs about debug text. *)
From Verif Require Import Base.Cpp Model.Numeric Model.FmtInt Model.Utf8 Model.Escape.
From Verif Require Import Spec.FormatSpec Spec.Utf8Spec Spec.EscapeSpec.
From Verif Require Import Proofs.FmtIntProofs Proofs.Utf8Decode Proofs.Utf8Proofs.
Set Default Proof Using "Type".
Local Open Scope Z_scope.
Ltac Zify.zify_post_hook ::= idtac.

(** ** is_printable returns *)

Definition starts (l : list (Z * nat)) (i : nat) : nat := sum_list (snd <$> take i l).
Definition tables_ok (singletons : list (Z * nat)) (lowers normal : list Z) : bool :=
  (starts singletons (length singletons) <=? length lowers)%nat &&
  match last normal with Some v => Z.land v 128 =? 0 | None => true end.

Lemma sum_list_app (xs ys : list nat) : sum_list (xs ++ ys) = (sum_list xs + sum_list ys)%nat.
Proof. induction xs as [|x xs IH]; cbn; lia. Qed.
Lemma starts_S l i x : l !! i = Some x -> starts l (S i) = (starts l i + x.2)%nat.
Proof. intros H. unfold starts. rewrite (take_S_r _ _ _ H), fmap_app, sum_list_app. cbn. lia. Qed.
Lemma starts_le l i : (starts l i <= starts l (length l))%nat.
Proof.
  unfold starts. rewrite firstn_all. rewrite <- (take_drop i l) at 2. rewrite fmap_app, sum_list_app. lia.
Qed.

Lemma is_printable16_ok x singletons lowers normal : tables_ok singletons lowers normal = true ->
  wp (is_printable16 x singletons lowers normal) (fun _ => True).
Proof.
  intros [Hs Hn]%andb_prop. apply Nat.leb_le in Hs. unfold is_printable16. apply wp_bind.
  apply (wp_loop (fun '(i, start) => (i <= length singletons)%nat /\ start = starts singletons i)
                 (fun '(i, _) => length singletons - i)%nat).
  - lia.
  - split; [lia|done].
  - assert (Hrest : forall found : bool, wp (if found then Ok false else
      loop (S (length normal)) (fun '(i, xsigned, current) =>
      if decide (i < length normal)%nat then
        let* v := get normal i in
        let* (i, len) :=
          if decide (Z.land v 128 <> 0) then
            let* n := get normal (S i) in Ok (S i, Z.lor (Z.shiftl (Z.land v 127) 8) n)
          else Ok (i, v) in
        let xsigned := xsigned - len in
        Ok (if decide (xsigned < 0) then inr current else inl (S i, xsigned, negb current))
      else Ok (inr current)) (0%nat, x, true)) (fun _ => True)).
    { intros [|]; [by apply wp_ok|].
      apply (wp_loop (fun _ => True) (fun '(i, _, _) => length normal - i)%nat); [lia|done|].
      intros [[i xs] cur] _. destruct (decide (i < length normal)%nat) as [Hi|]; [|by apply wp_ok].
      apply wp_bind, wp_get_lt; [done|]. intros v Hv. apply wp_bind.
      apply (wp_mono _ (fun '(j, len) => (i <= j)%nat)).
      - case_decide as Hv0; [|apply wp_ok; lia]. apply wp_bind, wp_get_lt; [|intros; apply wp_ok; lia].
        destruct (decide (S i = length normal)) as [E|]; [|lia]. exfalso. apply Hv0.
        rewrite last_lookup, <- E in Hn. cbn in Hn. rewrite Hv in Hn. by apply Z.eqb_eq in Hn.
      - intros [j len] Hj. apply wp_ok. case_decide; [done|]. split; [done|lia]. }
    intros [i start] [Hi ->]. case_decide as Hlt; [|apply wp_ok; apply (Hrest false)].
    apply wp_bind, wp_get_lt; [done|]. intros [u c] Hu.
    pose proof (starts_S _ _ _ Hu) as HS. cbn in HS. pose proof (starts_le singletons (S i)).
    case_decide; [apply wp_ok; apply (Hrest false)|]. apply wp_bind. eapply (wp_mono _ (fun _ => True)).
    + case_decide; [|by apply wp_ok]. apply (wp_for_up (fun _ _ => True)); [done| |done].
      intros k f Hk1 Hk2 _. apply wp_bind, wp_get_lt; [lia|]. intros. by apply wp_ok.
    + intros found _. apply wp_ok. destruct found; [apply (Hrest true)|]. split; [|lia]. split; [lia|]. by rewrite HS.
Qed.

Lemma is_printable_ok cp : wp (is_printable cp) (fun _ => True).
Proof.
  unfold is_printable. case_decide; [by apply is_printable16_ok|]. case_decide; [by apply is_printable16_ok|]. by apply wp_ok.
Qed.
Definition printable (cp : Z) : bool := match is_printable cp with Ok b => b | _ => false end.
Definition escapes (cp : Z) : bool := bool_decide (cp < 32 \/ cp = 127 \/ cp = 34 \/ cp = 92 \/ printable cp = false).
Lemma needs_escape_ok cp : needs_escape cp = Ok (escapes cp).
Proof.
  unfold needs_escape, escapes.
  destruct (decide (cp < 32)); [by rewrite bool_decide_true by tauto|].
  destruct (decide (cp = 127)); [by rewrite bool_decide_true by tauto|].
  destruct (decide (cp = 34)); [by rewrite bool_decide_true by tauto|].
  destruct (decide (cp = 92)); [by rewrite bool_decide_true by tauto|].
  unfold printable. destruct (is_printable_ok cp) as (b & -> & _). cbn [bind]. f_equal.
  destruct b.
  - rewrite bool_decide_false; [done|]. intros [|[|[|[|]]]]; done.
  - rewrite bool_decide_true; [done|]. by do 4 right.
Qed.

(** ** Hexadecimal *)

Lemma hex_eq w ds n : length ds = w -> Forall (fun d => 0 <= d < 16) ds -> number 16 ds = n -> digit_char false <$> ds = hex w n.
Proof.
  revert ds n. induction w as [|w IH]; intros ds n Hl Hf Hn.
  - destruct ds; [done|discriminate].
  - destruct ds as [|d ds _] using rev_ind; [discriminate|].
    rewrite app_length in Hl. cbn in Hl. apply Forall_app in Hf as [Hf Hd]. apply Forall_cons in Hd as [Hd _].
    rewrite number_app in Hn. change (number 16 [d]) with (0 * 16 + d) in Hn.
    change (16 ^ Z.of_nat (length [d])) with 16 in Hn. rewrite fmap_app. cbn [hex fmap list_fmap].
    assert (n / 16 = number 16 ds /\ n mod 16 = d) as [-> ->].
    { split; [symmetry; apply (Z.div_unique _ _ _ d); lia
             |symmetry; apply (Z.mod_unique _ _ (number 16 ds)); lia]. }
    by rewrite (IH ds (number 16 ds)) by (done || lia).
Qed.
Lemma number_zeros k ds : number 16 (replicate k 0 ++ ds) = number 16 ds.
Proof.
  rewrite number_app. assert (number 16 (replicate k 0) = 0) as ->; [|lia].
  induction k as [|k IH]; [done|]. cbn [replicate]. rewrite number_cons, IH. lia.
Qed.
Lemma write_codepoint_ok w out prefix cp : (0 < w)%nat -> 0 <= cp < 16 ^ Z.of_nat w ->
  write_codepoint w out prefix cp = Ok (out ++ [92; prefix] ++ hex w cp).
Proof.
  intros Hw Hcp. unfold write_codepoint.
  assert (Hnd : exists c, ndigits (2 ^ 4) cp (Z.of_nat c) /\ (c <= w)%nat).
  { clear -Hw Hcp. revert cp Hcp. induction w as [|w IH]; intros cp Hcp; [lia|].
    destruct (decide (w = 0%nat)) as [->|].
    - exists 1%nat. split; [|lia]. split; [lia|]. split; [cbn in *; lia|by left].
    - destruct (decide (cp < 16 ^ Z.of_nat w)) as [Hlt|Hge].
      + destruct (IH ltac:(lia) cp ltac:(lia)) as (c & Hc & Hle). exists c. split; [done|lia].
      + exists (S w). split; [|lia]. split; [lia|]. split; [exact (proj2 Hcp)|]. right.
        replace (Z.of_nat (S w) - 1) with (Z.of_nat w) by lia. change (2 ^ 4) with 16. lia. }
  destruct Hnd as (c & Hc & Hcw).
  destruct (format_uint_ok 4 (replicate w (Some 48)) [] cp false c) as ([m e] & Hm & He & ds & Hds & Hlen & Hm').
  - lia.
  - lia.
  - done.
  - by rewrite replicate_length.
  - rewrite app_nil_r, replicate_length in Hm. rewrite Hm. cbn [bind]. rewrite Hm', app_nil_r, replicate_length.
    rewrite take_replicate, Nat.min_l by lia.
    assert (Hz : replicate (w - c) (Some 48) = Some <$> (digit_char false <$> replicate (w - c) 0)) by (by rewrite !fmap_replicate).
    rewrite Hz, <- !fmap_app, read_all_some. cbn [bind]. do 4 f_equal.
    destruct Hds as (Hf & Hn & _). apply hex_eq.
    + rewrite app_length, replicate_length. lia.
    + apply Forall_app. split; [|done]. apply Forall_replicate. lia.
    + by rewrite number_zeros.
Qed.

(** ** Escapes *)

Lemma write_escaped_cp_ok out bs cp : 0 <= cp < 1114112 -> write_escaped_cp out bs cp = Ok (out ++ escape_cp cp).
Proof.
  intros Hcp. unfold write_escaped_cp, escape_cp.
  repeat (case_decide; [done|]).
  destruct (decide (cp < 256)); [apply write_codepoint_ok; cbn; lia|].
  destruct (decide (cp < 65536)); [apply write_codepoint_ok; cbn; lia|].
  rewrite decide_True by lia. apply write_codepoint_ok; cbn; lia.
Qed.
Lemma land_255 b : is_byte b -> Z.land b 255 = b.
Proof.
  intros Hb. change 255 with (Z.ones 8). rewrite Z.land_ones by lia. apply Z.mod_small. unfold is_byte in Hb. lia.
Qed.
Lemma write_escaped_cp_invalid out b : is_byte b ->
  write_escaped_cp out [b] invalid_code_point = Ok (out ++ [92; 120] ++ hex 2 b).
Proof.
  intros Hb. unfold write_escaped_cp, invalid_code_point. repeat (rewrite decide_False by lia).
  cbn [length for_up get lookup list_lookup bind]. rewrite land_255 by done. rewrite write_codepoint_ok; [done|lia|].
  unfold is_byte in Hb. cbn. lia.
Qed.

Definition piece_cp (p : option Z * list Z) : Z := default invalid_code_point p.1.
Lemma invalid_escapes : escapes invalid_code_point = true.
Proof. vm_compute. reflexivity. Qed.

Lemma pieces_app s ps1 ps2 : pieces s (ps1 ++ ps2) -> exists s2, s = concat (map snd ps1) ++ s2 /\ pieces s2 ps2.
Proof.
  revert s. induction ps1 as [|p ps1 IH]; intros s H; cbn in *; [eauto|].
  inversion H as [|cp s' ps' Hsc Hp|b s' ps' Hno Hp]; subst; destruct (IH _ Hp) as (s2 & -> & H2); exists s2; cbn;
    (split; [|done]); [by rewrite <- app_assoc|done].
Qed.

Lemma find_escape_ok s ps : Forall is_byte s -> pieces s ps -> exists ps1 ps2,
  ps = ps1 ++ ps2 /\ Forall (fun p => escapes (piece_cp p) = false) ps1 /\
  match ps2 with
  | [] => find_escape s = Ok (length s, None)
  | (c, bs) :: _ =>
      escapes (piece_cp (c, bs)) = true /\
      let n := length (concat (map snd ps1)) in find_escape s = Ok (n, Some ((n + length bs)%nat, piece_cp (c, bs)))
  end.
Proof.
  intros Hby Hps. unfold find_escape. rewrite (for_each_ok _ s ps) by done. clear Hby Hps.
  set (f := fun (cp : Z) (p n : nat) (result : nat * option (nat * Z)) => _).
  assert (H : forall p, exists ps1 ps2, ps = ps1 ++ ps2 /\ Forall (fun p => escapes (piece_cp p) = false) ps1 /\
    match ps2 with
    | [] => run f ps p (length s, None) = Ok (length s, None)
    | (c, bs) :: _ =>
        escapes (piece_cp (c, bs)) = true /\
        let n := (p + length (concat (map snd ps1)))%nat in
        run f ps p (length s, None) = Ok (n, Some ((n + length bs)%nat, piece_cp (c, bs)))
    end).
  { induction ps as [|[c bs] ps IH]; intros p.
    - exists [], []. done.
    - cbn [run].
      assert (Hf : f (default invalid_code_point c) p (length bs) (length s, None)
        = Ok (if escapes (piece_cp (c, bs)) then (false, (p, Some ((p + length bs)%nat, piece_cp (c, bs)))) else (true, (length s, None)))).
      { unfold f. by rewrite needs_escape_ok. }
      rewrite Hf. cbn [bind]. clear Hf.
      destruct (escapes (piece_cp (c, bs))) eqn:He.
      + exists [], ((c, bs) :: ps). split; [done|]. split; [constructor|]. split; [done|]. cbn [map concat length].
        by rewrite Nat.add_0_r.
      + destruct (IH (p + length bs)%nat) as (ps1 & ps2 & -> & Hf & H2). exists ((c, bs) :: ps1), ps2.
        split; [done|]. split; [by constructor|]. destruct ps2 as [|[c2 bs2] ps2]; [done|].
        destruct H2 as [H2 H3]. split; [done|]. cbv zeta in *. rewrite H3. cbn [map concat snd]. rewrite app_length. by rewrite Nat.add_assoc. }
  destruct (H 0%nat) as (ps1 & ps2 & H1 & H2 & H3). exists ps1, ps2. done.
Qed.

Lemma plain_pieces ps : Forall (fun p => escapes (piece_cp p) = false) ps ->
  concat (escape_piece printable <$> ps) = concat (map snd ps).
Proof.
  induction 1 as [|[c bs] ps Hc H IH]; [done|]. cbn [fmap list_fmap concat map snd]. f_equal; [|exact IH].
  destruct c as [cp|]; cbn [piece_cp fst default from_option id] in Hc.
  - unfold escape_piece. unfold escapes in Hc. apply bool_decide_eq_false in Hc. by rewrite decide_False.
  - exfalso. change (piece_cp (None, bs)) with invalid_code_point in Hc. by rewrite invalid_escapes in Hc.
Qed.

Lemma pieces_head s c bs ps : pieces s ((c, bs) :: ps) ->
  (exists s', s = bs ++ s' /\ pieces s' ps) /\
  match c with Some cp => scalar_value cp /\ bs = encode cp | None => exists b, bs = [b] end.
Proof. intros H. inversion H; subst; eauto 10. Qed.

Lemma write_escaped_string_ok out s ps : Forall is_byte s -> pieces s ps ->
  write_escaped_string out s = Ok (out ++ quoted printable ps).
Proof.
  intros Hby Hps. unfold write_escaped_string.
  set (step := fun '(out, begin) => _).
  assert (H : forall fuel ps out begin, (begin <= length s)%nat -> (length s - begin < fuel)%nat -> pieces (drop begin s) ps ->
    loop fuel step (out, begin) = Ok (out ++ concat (escape_piece printable <$> ps))).
  { clear ps Hps out. induction fuel as [|fuel IH]; intros ps out begin Hb Hfuel Hps; [lia|]. cbn [loop].
    unfold step at 1.
    assert (Hby' : Forall is_byte (drop begin s)) by (by apply Forall_drop).
    destruct (find_escape_ok _ _ Hby' Hps) as (ps1 & ps2 & -> & Hf & H2).
    destruct (pieces_app _ _ _ Hps) as (s2 & Hs2 & Hps2).
    destruct ps2 as [|[c bs] ps3].
    - rewrite H2. cbn [bind]. rewrite take_ge by done. f_equal. f_equal.
      rewrite app_nil_r. rewrite plain_pieces by done. inversion Hps2; subst s2. by rewrite app_nil_r in Hs2.
    - destruct H2 as [He ->]. cbn [bind]. rewrite Hs2 at 1. rewrite take_app.
      destruct (pieces_head _ _ _ _ Hps2) as ((s3 & -> & Hps3) & Hc).
      set (n := length (concat (map snd ps1))) in *.
      assert (Hbs : take (n + length bs - n) (drop n (drop begin s)) = bs).
      { rewrite Hs2. unfold n. rewrite drop_app. rewrite Nat.add_comm, Nat.add_sub. by rewrite take_app. }
      rewrite Hbs. rewrite Hs2, Forall_app, Forall_app in Hby'. destruct Hby' as (_ & Hbb & _).
      assert (Hesc : write_escaped_cp (out ++ concat (map snd ps1)) bs (piece_cp (c, bs))
                     = Ok (out ++ concat (map snd ps1) ++ escape_piece printable (c, bs))).
      { destruct c as [cp|]; cbn in Hc.
        - destruct Hc as [Hsc ->]. change (piece_cp (Some cp, encode cp)) with cp in *. destruct Hsc as [? ?].
          rewrite write_escaped_cp_ok by lia. rewrite <- app_assoc. do 3 f_equal. unfold escape_piece.
          unfold escapes in He. apply bool_decide_eq_true in He. by rewrite decide_True.
        - destruct Hc as [b ->]. change (piece_cp (None, [b])) with invalid_code_point.
          rewrite write_escaped_cp_invalid by (by apply Forall_cons in Hbb as [? _]). rewrite <- app_assoc. done. }
      rewrite Hesc. cbn [bind].
      assert (Hlen : (length s - begin = n + length bs + length s3)%nat).
      { apply (f_equal length) in Hs2. rewrite drop_length, !app_length in Hs2. unfold n. lia. }
      assert (Hdrop : drop (begin + (n + length bs)) s = s3).
      { rewrite <- drop_drop, Hs2. rewrite app_assoc. rewrite drop_app_alt; [done|]. rewrite app_length. done. }
      assert (Hbs1 : (1 <= length bs)%nat).
      { destruct c; [destruct Hc as [_ ->]; apply encode_length|destruct Hc as [b ->]; cbn; lia]. }
      rewrite fmap_app, concat_app, plain_pieces by done. cbn [fmap list_fmap concat].
      case_decide as Hend.
      + assert (s3 = []) as -> by (destruct s3; [done|cbn in Hlen; lia]).
        inversion Hps3; [|exfalso; pose proof (encode_length cp); destruct (encode cp); [cbn in *; lia|done]].
        cbn [fmap list_fmap concat]. by rewrite app_nil_r.
      + rewrite (IH ps3); [|lia|lia|by rewrite Hdrop]. f_equal. by rewrite <- !app_assoc. }
  rewrite (H _ ps); [|lia|lia|done]. cbn [bind]. unfold quoted. by rewrite <- !app_assoc.
Qed.

Lemma write_escaped_char_ok out c : is_byte c ->
  wp (write_escaped_char out c) (fun out' => exists t, out' = out ++ [39] ++ t ++ [39] /\
    t = if decide ((escapes c = true /\ c <> 34) \/ c = 39 \/ 128 <= c) then (if decide (c < 128) then escape_cp c else [92; 120] ++ hex 2 c) else [c]).
Proof.
  intros Hc. unfold is_byte in Hc. unfold write_escaped_char, char_to_uint32. rewrite needs_escape_ok. cbn [bind].
  destruct (decide (c < 128)) as [Hlt|Hge].
  - destruct (decide ((escapes c = true /\ c <> 34) \/ c = 39)) as [H|H].
    + rewrite write_escaped_cp_ok by lia. cbn [bind]. apply wp_ok. exists (escape_cp c). rewrite decide_True by tauto.
      split; [|done]. by rewrite <- !app_assoc.
    + cbn [bind]. apply wp_ok. exists [c]. rewrite decide_False by (intros [?|[?|?]]; [tauto|tauto|lia]).
      split; [|done]. by rewrite <- !app_assoc.
  - assert (He : escapes (c - 256 + 2 ^ 32) = true).
    { unfold escapes. apply bool_decide_eq_true. do 4 right. unfold printable, is_printable.
      do 2 rewrite decide_False by lia. repeat (case_match; [done|]). apply Z.ltb_ge. lia. }
    rewrite He. rewrite (decide_True (P := (true = true /\ c <> 34) \/ c = 39)) by (left; split; [done|lia]).
    unfold write_escaped_cp. repeat (rewrite decide_False by lia). cbn [length for_up get lookup list_lookup bind].
    rewrite land_255 by done. rewrite write_codepoint_ok by (cbn; lia). cbn [bind]. apply wp_ok. exists ([92; 120] ++ hex 2 c).
    rewrite decide_True by (right; right; lia). split; [|done]. by rewrite <- !app_assoc.
Qed.

(** ** Debug text can be read back *)

Lemma digit_char_inj u d d' : 0 <= d < 16 -> 0 <= d' < 16 -> digit_char u d = digit_char u d' -> d = d'.
Proof. intros H H'. unfold digit_char. destruct u; repeat case_decide; lia. Qed.
Lemma hex_length w n : length (hex w n) = w.
Proof. revert n. induction w as [|w IH]; intros n; cbn; [done|]. rewrite app_length, IH. cbn. lia. Qed.
Lemma hex_inj w n n' : 0 <= n < 16 ^ Z.of_nat w -> 0 <= n' < 16 ^ Z.of_nat w -> hex w n = hex w n' -> n = n'.
Proof.
  revert n n'. induction w as [|w IH]; intros n n' Hn Hn' H.
  - cbn in *. lia.
  - cbn [hex] in H. apply app_inj_tail in H as [H1 H2].
    apply digit_char_inj in H2; [|apply Z.mod_pos_bound; lia|apply Z.mod_pos_bound; lia].
    assert (Hb : forall m, 0 <= m < 16 ^ Z.of_nat (S w) -> 0 <= m / 16 < 16 ^ Z.of_nat w).
    { intros m Hm. rewrite Nat2Z.inj_succ, Z.pow_succ_r in Hm by lia.
      split; [apply Z.div_pos; lia|]. apply Z.div_lt_upper_bound; lia. }
    apply IH in H1; [|by apply Hb|by apply Hb].
    rewrite (Z.div_mod n 16), (Z.div_mod n' 16) by lia. by rewrite H1, H2.
Qed.
Lemma hex_app_inj w n n' t t' : 0 <= n < 16 ^ Z.of_nat w -> 0 <= n' < 16 ^ Z.of_nat w -> hex w n ++ t = hex w n' ++ t' -> n = n' /\ t = t'.
Proof.
  intros Hn Hn' H. apply app_inj_1 in H as [H1 H2]; [|by rewrite !hex_length]. split; [|done]. by apply hex_inj in H1.
Qed.

(** What follows the backslash. *)
Definition escape_tail (cp : Z) : Z * list Z :=
  if decide (cp = 10) then (110, [])
  else if decide (cp = 13) then (114, [])
  else if decide (cp = 9) then (116, [])
  else if decide (cp = 34 \/ cp = 39 \/ cp = 92) then (cp, [])
  else if decide (cp < 256) then (120, hex 2 cp)
  else if decide (cp < 65536) then (117, hex 4 cp)
  else (85, hex 8 cp).
Lemma escape_cp_tail cp : escape_cp cp = 92 :: (escape_tail cp).1 :: (escape_tail cp).2.
Proof. unfold escape_cp, escape_tail. repeat (case_decide; [done|]). done. Qed.

Lemma escape_cp_inj cp cp' t t' : 0 <= cp < 1114112 -> 0 <= cp' < 1114112 ->
  escape_cp cp ++ t = escape_cp cp' ++ t' -> cp = cp' /\ t = t'.
Proof.
  intros Hc Hc'. rewrite !escape_cp_tail. cbn [app]. intros [= H1 H2]. revert H1 H2. unfold escape_tail.
  destruct (decide (cp = 10)); [|destruct (decide (cp = 13)); [|destruct (decide (cp = 9));
    [|destruct (decide (cp = 34 \/ cp = 39 \/ cp = 92)); [|destruct (decide (cp < 256)); [|destruct (decide (cp < 65536))]]]]];
  (destruct (decide (cp' = 10)); [|destruct (decide (cp' = 13)); [|destruct (decide (cp' = 9));
    [|destruct (decide (cp' = 34 \/ cp' = 39 \/ cp' = 92)); [|destruct (decide (cp' < 256)); [|destruct (decide (cp' < 65536))]]]]]);
  cbn [fst snd]; intros H1 H2; try lia; try (split; [lia|exact H2]);
  (eapply hex_app_inj; [| |exact H2]; cbn; lia).
Qed.

Lemma encode_first_92 cp t t' : scalar_value cp -> encode cp ++ t = 92 :: t' -> cp = 92.
Proof.
  intros Hsc H. change (92 :: t') with (encode 92 ++ t') in H. apply encode_inj in H; [done|done|]. unfold scalar_value. lia.
Qed.
Lemma encode_first_34 cp t t' : scalar_value cp -> encode cp ++ t = 34 :: t' -> cp = 34.
Proof.
  intros Hsc H. change (34 :: t') with (encode 34 ++ t') in H. apply encode_inj in H; [done|done|]. unfold scalar_value. lia.
Qed.

Definition valid_piece (p : option Z * list Z) : Prop := exists cp, scalar_value cp /\ p = (Some cp, encode cp).
Lemma escape_piece_inj pr p p' t t' : valid_piece p -> valid_piece p' ->
  escape_piece pr p ++ t = escape_piece pr p' ++ t' -> p = p' /\ t = t'.
Proof.
  intros (cp & Hsc & ->) (cp' & Hsc' & ->). unfold escape_piece.
  destruct (decide (cp < 32 \/ _)) as [H|H], (decide (cp' < 32 \/ _)) as [H'|H']; intros Heq.
  - destruct Hsc as [? _], Hsc' as [? _]. apply escape_cp_inj in Heq as [-> ->]; [done|lia|lia].
  - exfalso. rewrite escape_cp_tail in Heq. symmetry in Heq. apply encode_first_92 in Heq; [|done]. tauto.
  - exfalso. rewrite escape_cp_tail in Heq. apply encode_first_92 in Heq; [|done]. tauto.
  - pose proof (encode_inj _ _ _ _ Hsc Hsc' Heq) as ->. by apply app_inv_head in Heq.
Qed.
Lemma escape_piece_not_quote pr p t t' : valid_piece p -> escape_piece pr p ++ t <> 34 :: t'.
Proof.
  intros (cp & Hsc & ->) Heq. unfold escape_piece in Heq. case_decide as H.
  - by rewrite escape_cp_tail in Heq.
  - apply encode_first_34 in Heq; [|done]. tauto.
Qed.
Lemma quoted_inj pr ps ps' : Forall valid_piece ps -> Forall valid_piece ps' -> quoted pr ps = quoted pr ps' -> ps = ps'.
Proof.
  unfold quoted. intros Hf Hf' H. injection H as H. revert ps' Hf' H.
  induction Hf as [|p ps Hp Hf IH]; intros ps' Hf' H.
  - destruct Hf' as [|p' ps' Hp' Hf']; [done|]. exfalso. cbn in H. rewrite <- app_assoc in H.
    by apply (escape_piece_not_quote pr p' (concat (escape_piece pr <$> ps') ++ [34]) []).
  - destruct Hf' as [|p' ps' Hp' Hf'].
    + exfalso. cbn in H. rewrite <- app_assoc in H.
      by apply (escape_piece_not_quote pr p (concat (escape_piece pr <$> ps) ++ [34]) []).
    + cbn in H. rewrite <- !app_assoc in H. apply escape_piece_inj in H as [-> H]; [|done|done]. f_equal. by apply IH.
Qed.
Lemma valid_pieces s ps : pieces s ps -> Forall (fun p => p.1 <> None) ps -> Forall valid_piece ps.
Proof.
  induction 1 as [|cp s ps Hsc H IH|b s ps Hno H IH]; intros Hf; [constructor| |].
  - apply Forall_cons in Hf as [_ Hf]. constructor; [by exists cp|by apply IH].
  - by apply Forall_cons in Hf as [Hf _].
Qed.
