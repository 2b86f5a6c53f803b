(** String (string.hpp:20-262) is a character list. *)
From Verif Require Import Base.Cpp Base.Mem Model.Vector Model.Sequence Model.Str
  Spec.VectorSpec Spec.StrSpec Proofs.MemLemmas Proofs.VectorProofs.
Set Default Proof Using "Type".

Notation srep := (vec_repw chr).
Implicit Types (m : mem nat) (s : vec) (xs cs : list nat).

Lemma all_vacant (l : list (cell nat)) : Forall (vacant chr) l.
Proof. apply Forall_forall. intros c _. by right. Qed.

(** Nothing allocated yet, or a free slot behind the characters. *)
Definition roomy s : Prop := v_data s = Null \/ v_size s < v_cap s.

Lemma srep_intro m s xs b rest : v_data s = Blk b -> blk m b ((Live <$> xs) ++ rest) ->
  v_size s = length xs -> v_cap s = length xs + length rest -> srep m s xs.
Proof. intros. split; [done|]. right. exists b, rest. split_and!; try done. apply all_vacant. Qed.

Lemma strong_room m s xs : vec_rep chr m s xs -> roomy s.
Proof. intros [Hs [(Hd & _)|(b & rest & Hd & _ & _ & Hc & H1)]]; [by left|right; lia]. Qed.

Lemma room_strong m s xs : srep m s xs -> roomy s -> vec_rep chr m s xs.
Proof.
  intros [Hs [(Hd & -> & Hc)|(b & rest & Hd & Hb & Hv & Hc)]] Hr; (split; [done|]); [by left|].
  right. exists b, rest. split_and!; try done. destruct Hr as [?|?]; [congruence|lia].
Qed.

Lemma srep_cap m s xs : srep m s xs -> length xs <= v_cap s.
Proof. intros [Hs [(Hd & -> & Hc)|(b & rest & Hd & Hb & Hv & Hc)]]; simpl; lia. Qed.

Lemma srep_read m s xs i x : srep m s xs -> xs !! i = Some x -> pread m (v_data s) i = Ok x.
Proof.
  intros [Hs [(_ & -> & _)|(b & rest & Hv & Hb & _)]] Hi; [done|].
  unfold pread. rewrite Hv. simpl. eapply read_ok; [done|]. by apply lookup_live_app.
Qed.

Lemma srep_iter m s xs : srep m s xs -> vec_iter s m = Ok xs.
Proof.
  intros Hr. apply wp_eq. unfold vec_iter. destruct (Hr) as [Hs _].
  apply (wp_for_up (fun i acc => acc = take i xs)).
  - by rewrite take_0.
  - intros k acc _ Hk ->. rewrite Hs in Hk. simpl in Hk.
    destruct (lookup_lt_is_Some_2 xs k Hk) as [x Hx].
    rewrite (srep_read _ _ _ _ _ Hr Hx). simpl. apply wp_ok. symmetry. by apply take_S_r.
  - intros acc ->. simpl. rewrite Hs. by rewrite firstn_all.
Qed.

Lemma srep_reads m s xs : srep m s xs -> vec_reads s m xs.
Proof.
  intros Hr. split; [by destruct Hr|]. split; [|by apply srep_iter].
  intros i x Hi. by eapply srep_read.
Qed.

Lemma srep_mono m m' s xs :
  (forall b cells, v_data s = Blk b -> blk m b cells -> blk m' b cells) -> srep m s xs -> srep m' s xs.
Proof.
  intros H [Hs [Hn|(b & rest & Hv & Hb & Hr)]]; split; try done; [by left|].
  right. exists b, rest. split_and!; try done; [by apply H|apply Hr..].
Qed.

Lemma frame_srep m v m' v' w ys : frame m v m' v' -> srep m w ys -> disj w v ->
  srep m' w ys /\ disj w v'.
Proof.
  intros (_ & Ho & _) [Hs Hw] Hd. split.
  - apply (srep_mono m); [|by split]. intros b cells Hb Hc. apply Ho; [|done]. by apply Hd.
  - intros b Hb. destruct Hw as [(Hn & _)|(b' & rest & Hv & Hbk & _)]; [congruence|].
    assert (b' = b) by congruence. subst b'. eapply Ho; [|done]. by apply Hd.
Qed.

(** ** The inherited operations, without the spare slot *)
Lemma s_reserve m s xs k : srep m s xs -> exists s' m',
  vec_reserve chr s k m = Ok (s', m') /\ srep m' s' xs /\ frame m s m' s' /\
  v_cap s' = Nat.max (v_cap s) k /\ v_size s' = v_size s /\
  ((s' = s /\ m' = m) \/ (v_cap s < k /\ roomy s' /\ forall b, v_data s = Blk b -> blocks m' !! b = Some None)).
Proof.
  intros Hr. pose proof (srep_cap _ _ _ Hr) as Hcap. unfold vec_reserve. case_decide as Hk.
  - destruct (realloc_rep chr m s xs k Hr) as (m' & Eq & Hb & Hrel & Hf); [lia|].
    eexists _, m'. split; [exact Eq|].
    assert (HR : vec_rep chr m' (Vec (Blk (length (blocks m))) (v_size s) k) xs).
    { apply grown_rep; [by destruct Hr|lia|done]. }
    split; [by apply vec_rep_w|]. split; [done|]. simpl. split; [lia|]. split; [done|].
    right. split; [lia|]. split; [by eapply strong_room|]. done.
  - exists s, m. split_and!; try done; [apply frame_refl|lia|by left].
Qed.

Lemma s_shrink m s xs : srep m s xs -> exists s' m',
  vec_shrink chr s m = Ok (s', m') /\ srep m' s' xs /\ frame m s m' s' /\ roomy s'.
Proof.
  intros Hr. pose proof (srep_cap _ _ _ Hr) as Hcap.
  assert (Hs : v_size s = length xs) by (by destruct Hr).
  unfold vec_shrink. rewrite decide_True by lia.
  destruct (realloc_rep chr m s xs (v_size s + 1) Hr) as (m' & Eq & Hb & _ & Hf); [lia|].
  eexists _, m'. split; [exact Eq|].
  assert (HR : vec_rep chr m' (Vec (Blk (length (blocks m))) (v_size s) (v_size s + 1)) xs).
  { apply grown_rep; [done|lia|done]. }
  split; [by apply vec_rep_w|]. split; [done|]. by eapply strong_room.
Qed.

Lemma s_grow m s xs : srep m s xs -> exists s' m',
  vec_grow chr s m = Ok (s', m') /\ vec_rep chr m' s' xs /\ frame m s m' s' /\
  length xs + 1 < v_cap s' /\
  ((s' = s /\ m' = m) \/
   (v_cap s <= length xs + 1 /\ forall b, v_data s = Blk b -> blocks m' !! b = Some None)).
Proof.
  intros Hr. pose proof (srep_cap _ _ _ Hr) as Hcap.
  assert (Hs : v_size s = length xs) by (by destruct Hr).
  unfold vec_grow. case_decide as Hc.
  - destruct (s_reserve m s xs (if decide (v_size s = 0) then 2 else 2 * v_size s + 1) Hr)
      as (s' & m' & Eq & Hr' & Hf & Hc' & _ & Hcase).
    assert (Hlt : v_cap s < (if decide (v_size s = 0) then 2 else 2 * v_size s + 1)).
    { case_decide; lia. }
    destruct Hcase as [[-> ->]|(_ & Hroom & Hrel)]; [lia|].
    exists s', m'. split; [done|]. split; [by apply room_strong|]. split; [done|].
    split; [|right; split; [lia|done]]. rewrite Hc'. case_decide; lia.
  - exists s, m. split; [done|]. split; [apply room_strong; [done|right; lia]|].
    split; [apply frame_refl|]. split; [lia|by left].
Qed.

Lemma push_ref_rep m s xs src c : srep m s xs ->
  (forall s1 m1, vec_grow chr s m = Ok (s1, m1) -> src m1 = Ok c) ->
  exists s' m', push_ref s src m = Ok (s', m') /\ vec_rep chr m' s' (xs ++ [c]) /\ frame m s m' s' /\
    (length xs + 1 < v_cap s -> v_data s' = v_data s /\ v_cap s' = v_cap s).
Proof.
  intros Hr Hsrc. destruct (s_grow m s xs Hr) as (s1 & m1 & Eg & Hr1 & Hf1 & Hc & Hcase).
  destruct (spare_push chr m1 s1 xs c Hr1 Hc) as (b & cs' & Hd & Ec & Hr2 & Hf2).
  unfold push_ref. rewrite Eg. cbn [bind]. rewrite (Hsrc _ _ Eg). cbn [bind]. rewrite Ec. cbn [bind].
  eexists _, _. split; [done|]. split; [done|]. split; [by eapply frame_trans|].
  intros Hlt. destruct Hcase as [[-> ->]|[? _]]; [done|lia].
Qed.

Lemma vec_push_ref s c m : vec_push chr s c m = push_ref s (fun _ => Ok c) m.
Proof. done. Qed.

Lemma s_push m s xs c : srep m s xs -> exists s' m',
  vec_push chr s c m = Ok (s', m') /\ srep m' s' (xs ++ [c]) /\ frame m s m' s' /\ roomy s'.
Proof.
  intros Hr. rewrite vec_push_ref.
  destruct (push_ref_rep m s xs (fun _ => Ok c) c Hr) as (s' & m' & E & Hr' & Hf & _); [done|].
  exists s', m'. split_and!; try done; [by apply vec_rep_w|by eapply strong_room].
Qed.

Lemma s_clear m s xs : srep m s xs -> exists s' m',
  vec_clear chr s m = Ok (s', m') /\ srep m' s' [] /\ frame m s m' s' /\ v_cap s' = v_cap s /\
  v_data s' = v_data s /\ m' = m /\ v_size s' = 0.
Proof.
  intros Hr. unfold vec_clear.
  assert (Hm : destroy_all chr (v_data s) (v_size s) m = Ok m).
  { destruct Hr as [Hs [(Hd & -> & Hc)|(b & rest & Hd & Hb & Hv & Hc)]].
    - by rewrite Hs.
    - apply wp_eq. unfold destroy_all. apply (wp_for_up (fun _ m' => m' = m)); [done| |done].
      intros k m' _ Hk ->. rewrite Hs in Hk. simpl in Hk.
      destruct (lookup_lt_is_Some_2 xs k Hk) as [x Hx].
      rewrite Hd. unfold pdestroy, with_ptr, destroy.
      rewrite (with_block_blk _ _ _ _ Hb).
      rewrite (lookup_live_app xs rest k x Hx). simpl. by apply wp_ok. }
  rewrite Hm. cbn [bind]. eexists _, _. split; [done|]. split_and!; try done.
  - destruct Hr as [Hs [(Hd & -> & Hc)|(b & rest & Hd & Hb & Hv & Hc)]].
    + split; [done|]. left. done.
    + apply (srep_intro m _ [] b ((Live <$> xs) ++ rest)); try done.
      simpl. rewrite app_length, fmap_length. lia.
  - unfold frame. split_and!; try done; simpl; auto.
Qed.

Lemma s_set m s xs i c : srep m s xs -> i < length xs -> exists m',
  vec_set chr s i c m = Ok m' /\ srep m' s (<[i := c]> xs) /\ frame m s m' s.
Proof.
  intros [Hs [(Hd & -> & Hc)|(b & rest & Hd & Hb & Hv & Hc)]] Hi; [simpl in *; lia|].
  destruct (lookup_lt_is_Some_2 xs i Hi) as [x Hx].
  unfold vec_set, passign. rewrite Hd. cbn [with_ptr].
  rewrite (assign_live chr m b _ i c x Hb) by (by apply lookup_live_app).
  eexists. split; [done|].
  rewrite (insert_app_l (Live <$> xs)) by (by rewrite fmap_length).
  rewrite <- list_fmap_insert.
  split.
  - apply (srep_intro _ _ _ b rest); [done|by eapply blk_upd|by rewrite insert_length..].
  - destruct s as [d z k]. simpl in Hd. subst d. by eapply frame_upd.
Qed.

(** ** C strings *)
Lemma char_length_ok fuel src cs : nul_free cs ->
  (forall i c, (cs ++ [0]) !! i = Some c -> src i = Ok c) -> length cs < fuel ->
  char_length fuel src = Ok (length cs).
Proof.
  intros Hn Hsrc Hfu. apply wp_eq. unfold char_length.
  apply (wp_loop (fun i => i <= length cs) (fun i => length cs - i)); [lia|lia|].
  intros i Hi. destruct (decide (i = length cs)) as [->|Hne].
  - rewrite (Hsrc (length cs) 0). 2:{ by rewrite list_lookup_middle. }
    simpl. by apply wp_ok.
  - destruct (lookup_lt_is_Some_2 cs i) as [c Hc]; [lia|].
    rewrite (Hsrc i c). 2:{ by apply lookup_app_l_Some. }
    simpl. unfold nul_free in Hn. rewrite Forall_lookup in Hn. rewrite decide_False by eauto.
    apply wp_ok. split; lia.
Qed.

Lemma char_length_c cs : nul_free cs ->
  char_length (S (length (c_string cs))) (get (c_string cs)) = Ok (length cs).
Proof.
  intros Hn. apply char_length_ok; [done| |].
  - intros i c Hi. unfold get, c_string. by rewrite Hi.
  - unfold c_string. rewrite app_length. simpl. lia.
Qed.

Lemma get_c_string cs i c : cs !! i = Some c -> get (c_string cs) i = Ok c.
Proof. intros H. unfold get, c_string. rewrite (lookup_app_l_Some _ _ _ _ H). done. Qed.

(** ** append, assign *)
Lemma push_all_rep m s xs (src : mem nat -> nat -> res nat) cs : srep m s xs ->
  (forall k c m', cs !! k = Some c -> src m' k = Ok c) ->
  exists s' m', for_up (length cs) 0 (fun i '(s, m) => push_ref s (fun m => src m i) m) (s, m) = Ok (s', m') /\
    srep m' s' (xs ++ cs) /\ frame m s m' s' /\ (roomy s -> roomy s').
Proof.
  intros Hr Hsrc.
  assert (HH : wp (for_up (length cs) 0 (fun i '(s, m) => push_ref s (fun m => src m i) m) (s, m))
     (fun '(s', m') => srep m' s' (xs ++ cs) /\ frame m s m' s' /\ (roomy s -> roomy s'))).
  { apply (wp_for_up (fun i '(s', m') => srep m' s' (xs ++ take i cs) /\ frame m s m' s' /\ (roomy s -> roomy s'))).
    - rewrite take_0, app_nil_r. split_and!; [done|apply frame_refl|done].
    - intros k [s1 m1] _ Hk (Hr1 & Hf1 & Hm1). simpl in Hk.
      destruct (lookup_lt_is_Some_2 cs k Hk) as [c Hc].
      destruct (push_ref_rep m1 s1 _ (fun m => src m k) c Hr1) as (s2 & m2 & -> & Hr2 & Hf2 & _).
      { intros s' m' _. by apply Hsrc. }
      apply wp_ok. rewrite (take_S_r cs k c) by done. rewrite (assoc_L (++)).
      split_and!; [by apply vec_rep_w|by eapply frame_trans|intros _; by eapply strong_room].
    - intros [s' m']. simpl. by rewrite firstn_all. }
  destruct HH as ([s' m'] & E & H). exists s', m'. done.
Qed.

Lemma str_append_rep m s xs cs : srep m s xs -> nul_free cs -> exists s' m',
  str_append s (c_string cs) m = Ok (s', m') /\ srep m' s' (xs ++ cs) /\ frame m s m' s' /\ (roomy s -> roomy s').
Proof.
  intros Hr Hn. unfold str_append, append_from.
  change (foreign (c_string cs) m) with (get (c_string cs)).
  rewrite char_length_c by done. cbn [bind].
  apply (push_all_rep m s xs (foreign (c_string cs)) cs Hr).
  intros k c m' Hk. by apply get_c_string.
Qed.

Lemma str_append_n_rep m s xs n c : srep m s xs -> exists s' m',
  str_append_n s n c m = Ok (s', m') /\ srep m' s' (xs ++ replicate n c) /\ frame m s m' s' /\ (roomy s -> roomy s').
Proof.
  intros Hr. unfold str_append_n.
  pose proof (push_all_rep m s xs (fun _ _ => Ok c) (replicate n c) Hr) as HH.
  rewrite replicate_length in HH. apply HH. intros k c' m' H.
  apply lookup_replicate in H as [-> _]. done.
Qed.

Lemma str_plus_rep m s xs o ys : srep m s xs -> srep m o ys -> disj o s -> exists s' m',
  str_plus s o m = Ok (s', m') /\ srep m' s' (xs ++ ys) /\ srep m' o ys /\ disj o s' /\
  frame m s m' s' /\ (roomy s -> roomy s').
Proof.
  intros Hr Ho Hd. unfold str_plus. assert (Hso : v_size o = length ys) by (by destruct Ho).
  assert (HH : wp (for_up (v_size o) 0 (fun i '(s, m) =>
     let* c := pread m (v_data o) i in vec_push chr s c m) (s, m))
     (fun '(s', m') => srep m' s' (xs ++ ys) /\ srep m' o ys /\ disj o s' /\ frame m s m' s' /\ (roomy s -> roomy s'))).
  { apply (wp_for_up (fun i '(s', m') => srep m' s' (xs ++ take i ys) /\ srep m' o ys /\ disj o s' /\
      frame m s m' s' /\ (roomy s -> roomy s'))).
    - rewrite take_0, app_nil_r. split_and!; [done|done|done|apply frame_refl|done].
    - intros k [s1 m1] _ Hk (Hr1 & Ho1 & Hd1 & Hf1 & Hm1). rewrite Hso in Hk. simpl in Hk.
      destruct (lookup_lt_is_Some_2 ys k Hk) as [c Hc].
      rewrite (srep_read _ _ _ _ _ Ho1 Hc). cbn [bind].
      destruct (s_push m1 s1 _ c Hr1) as (s2 & m2 & -> & Hr2 & Hf2 & Hm2).
      apply wp_ok. rewrite (take_S_r ys k c) by done. rewrite (assoc_L (++)).
      destruct (frame_srep _ _ _ _ _ _ Hf2 Ho1 Hd1) as [Ho2 Hd2].
      split_and!; try done. by eapply frame_trans.
    - intros [s' m']. simpl. rewrite Hso. by rewrite firstn_all. }
  destruct HH as ([s' m'] & E & H). exists s', m'. done.
Qed.

(** ** insert *)
Lemma str_open_rep m s xs pos cs (src : mem nat -> nat -> res nat) : srep m s xs -> pos <= length xs ->
  length xs + length cs <= v_cap s ->
  (forall k c m', cs !! k = Some c -> src m' k = Ok c) ->
  exists m', str_open s pos (length cs) src m = Ok (Vec (v_data s) (v_size s + length cs) (v_cap s), m') /\
    srep m' (Vec (v_data s) (v_size s + length cs) (v_cap s)) (take pos xs ++ cs ++ drop pos xs) /\
    frame m s m' (Vec (v_data s) (v_size s + length cs) (v_cap s)).
Proof.
  intros [Hs [(Hd & -> & Hc)|(b & rest0 & Hd & Hb & _ & Hc)]] Hp Hcap Hsrc.
  { simpl in *. assert (cs = []) as -> by (destruct cs; [done|simpl in *; lia]).
    assert (pos = 0) as -> by lia. unfold str_open. rewrite Hs. simpl.
    exists m. replace (Vec (v_data s) 0 (v_cap s)) with s by (destruct s; simpl in *; by subst).
    split_and!; [done| |apply frame_refl]. split; [done|]. by left. }
  unfold str_open.
  set (rest := drop (length cs) rest0).
  assert (Hl1 : exists mid, length mid = length cs /\
    for_down (v_size s) pos (fun k m =>
      let* c := pread m (v_data s) k in passign chr m (v_data s) (k + length cs) c) m =
    Ok (upd m b ((Live <$> take pos xs) ++ mid ++ (Live <$> drop pos xs) ++ rest))).
  { rewrite Hs, Hd.
    assert (HH : wp (for_down (length xs) pos (fun k m =>
        let* c := pread m (Blk b) k in passign chr m (Blk b) (k + length cs) c) m)
      (fun m' => exists mid, length mid = length cs /\
         m' = upd m b ((Live <$> take pos xs) ++ mid ++ (Live <$> drop pos xs) ++ rest))).
    { apply (wp_for_down (fun k m' => exists mid, length mid = length cs /\
         m' = upd m b ((Live <$> take k xs) ++ mid ++ (Live <$> drop k xs) ++ rest))); [lia| | |done].
      - exists (take (length cs) rest0). split; [rewrite take_length; lia|].
        rewrite firstn_all, drop_ge by lia. simpl. unfold rest. rewrite take_drop. by rewrite upd_same.
      - intros k m' Hk1 Hk2 (mid & Hmid & ->).
        destruct (lookup_lt_is_Some_2 xs k Hk2) as [x Hx].
        rewrite (take_S_r xs k x) by done. rewrite fmap_app, <- (assoc_L (++)). simpl.
        unfold pread, passign, with_ptr.
        assert (Hlk : length (Live <$> take k xs) = k) by (rewrite fmap_length, take_length; lia).
        erewrite (read_ok _ b _ k x).
        2:{ by eapply blk_upd. }
        2:{ rewrite lookup_app_r by lia. rewrite Hlk, Nat.sub_diag. done. }
        cbn [bind].
        destruct (exists_last (l := Live x :: mid)) as (mid' & c & Hmc); [done|].
        assert (Hml : length mid' = length cs).
        { pose proof (f_equal length Hmc) as HL. rewrite app_length in HL. simpl in HL. lia. }
        assert (Hcells : (Live <$> take k xs) ++ Live x :: mid ++ (Live <$> drop (S k) xs) ++ rest =
          ((Live <$> take k xs) ++ mid') ++ c :: (Live <$> drop (S k) xs) ++ rest).
        { rewrite app_comm_cons, Hmc. rewrite <- !(assoc_L (++)). done. }
        rewrite Hcells.
        erewrite (assign_triv chr _ b _ (k + length cs)); [|done|by eapply blk_upd|].
        2:{ rewrite lookup_app_r by (rewrite app_length; lia). rewrite app_length, Hlk, Hml, Nat.sub_diag. done. }
        apply wp_ok. exists mid'. split; [done|]. rewrite upd_upd. f_equal.
        rewrite insert_boundary by (rewrite app_length; lia).
        rewrite (drop_S xs x k Hx). rewrite fmap_cons. rewrite <- !(assoc_L (++)). done. }
    destruct HH as (m' & -> & mid & Hmid & ->). exists mid. done. }
  destruct Hl1 as (mid & Hmid & ->). cbn [bind]. rewrite Hd.
  set (m1 := upd m b _).
  assert (Hl2 : for_up (length cs) 0 (fun i m =>
      let* c := src m i in passign chr m (Blk b) (pos + i) c) m1 =
      Ok (upd m b ((Live <$> take pos xs) ++ (Live <$> cs) ++ (Live <$> drop pos xs) ++ rest))).
  { apply wp_eq. apply (wp_for_up (fun i m' => m' = upd m b ((Live <$> take pos xs) ++
      (Live <$> take i cs) ++ drop i mid ++ (Live <$> drop pos xs) ++ rest))).
    - by rewrite take_0, drop_0.
    - intros k m' _ Hk ->. simpl in Hk.
      destruct (lookup_lt_is_Some_2 cs k Hk) as [c Hck].
      destruct (lookup_lt_is_Some_2 mid k) as [d Hdk]; [lia|].
      rewrite (Hsrc k c) by done. cbn [bind]. unfold passign, with_ptr.
      rewrite (drop_S mid d k Hdk). simpl.
      assert (Hlp : length ((Live <$> take pos xs) ++ (Live <$> take k cs)) = pos + k).
      { rewrite app_length, !fmap_length, !take_length. lia. }
      rewrite (assoc_L (++)).
      erewrite (assign_triv chr _ b _ (pos + k)); [|done|by eapply blk_upd|].
      2:{ rewrite lookup_app_r by lia. rewrite Hlp, Nat.sub_diag. done. }
      apply wp_ok. rewrite upd_upd. f_equal.
      rewrite insert_boundary by lia.
      rewrite (take_S_r cs k c) by done. rewrite fmap_app. rewrite <- !(assoc_L (++)). done.
    - intros m' ->. simpl. rewrite firstn_all, (drop_ge mid) by lia. done. }
  rewrite Hl2. cbn [bind]. eexists. split; [done|]. split.
  - apply (srep_intro _ _ _ b rest); [done| |..]; cbn [v_data v_size v_cap].
    + rewrite !fmap_app, <- !(assoc_L (++)). by eapply blk_upd.
    + rewrite !app_length, take_length, drop_length. lia.
    + unfold rest. rewrite !app_length, take_length, !drop_length. lia.
  - by eapply frame_upd.
Qed.

Lemma str_insert_rep m s xs pos cs : srep m s xs -> pos <= length xs -> nul_free cs -> exists s' m',
  str_insert s pos (c_string cs) m = Ok (s', m') /\ srep m' s' (take pos xs ++ cs ++ drop pos xs) /\ frame m s m' s'.
Proof.
  intros Hr Hp Hn. assert (Hs : v_size s = length xs) by (by destruct Hr).
  unfold str_insert, insert_from. rewrite decide_False by lia.
  change (foreign (c_string cs) m) with (get (c_string cs)).
  rewrite char_length_c by done. cbn [bind].
  destruct (s_reserve m s xs (v_size s + length cs) Hr) as (s1 & m1 & -> & Hr1 & Hf1 & Hc1 & Hs1 & _).
  cbn [bind].
  destruct (str_open_rep m1 s1 xs pos cs (foreign (c_string cs)) Hr1) as (m2 & -> & Hr2 & Hf2); [done|lia| |].
  { intros k c m' Hk. by apply get_c_string. }
  eexists _, _. split; [done|]. split; [done|]. by eapply frame_trans.
Qed.

Lemma str_insert_n_rep m s xs pos buf n : srep m s xs -> pos <= length xs -> n <= length buf -> exists s' m',
  str_insert_n s pos buf n m = Ok (s', m') /\ srep m' s' (take pos xs ++ take n buf ++ drop pos xs) /\
  frame m s m' s' /\ roomy s'.
Proof.
  intros Hr Hp Hn. assert (Hs : v_size s = length xs) by (by destruct Hr).
  unfold str_insert_n. rewrite decide_False by lia.
  destruct (s_reserve m s xs (v_size s + n + 1) Hr) as (s1 & m1 & -> & Hr1 & Hf1 & Hc1 & Hs1 & _).
  cbn [bind].
  assert (Hln : length (take n buf) = n) by (rewrite take_length; lia).
  destruct (str_open_rep m1 s1 xs pos (take n buf) (foreign buf) Hr1) as (m2 & E2 & Hr2 & Hf2); [done|lia| |].
  { intros k c m' Hk. unfold foreign, get. apply lookup_take_Some in Hk as [-> _]. done. }
  rewrite Hln in *. rewrite E2.
  eexists _, _. split; [done|]. split; [done|]. split; [by eapply frame_trans|].
  right. simpl. lia.
Qed.

(** ** One operation, a history *)
Lemma str_step_rep o m s xs : srep m s xs ->
  match chars_step o xs with
  | LOk ys => exists s' m', str_step (call o) s m = Ok (s', m') /\ srep m' s' ys /\ frame m s m' s' /\
      (leaves_room o = true -> roomy s -> roomy s')
  | LThrow => str_step (call o) s m = Throw
  | LUndef => True
  end.
Proof.
  intros Hr. assert (Hs : v_size s = length xs) by (by destruct Hr).
  destruct o as [o|cs|n c|cs|n c|pos cs|pos buf n]; simpl.
  - destruct o as [a| |i a|i| |k| |i a]; simpl.
    + destruct (s_push m s xs a Hr) as (s' & m' & ? & ? & ? & ?). eauto 8.
    + destruct xs as [|x xs'].
      { unfold vec_pop. by rewrite decide_True. }
      assert (Hne : x :: xs' <> []) by done. revert Hr. rewrite (app_removelast_last x Hne) at 1.
      intros Hr. apply vec_pop_rep in Hr as (s' & m' & E & HR & Hf).
      exists s', m'. split_and!; [done|by apply vec_rep_w|done|]. intros _ _. by eapply strong_room.
    + done.
    + case_decide as Hi.
      * destruct (vec_erase_rep chr m s xs i Hr Hi) as (s' & m' & E & HR & Hf); [by left|].
        exists s', m'. split_and!; [done|by apply vec_rep_w|done|]. intros _ _. by eapply strong_room.
      * unfold vec_erase. by rewrite decide_True by lia.
    + destruct (s_clear m s xs Hr) as (s' & m' & E & HR & Hf & Hc & Hd & _ & Hz).
      exists s', m'. split_and!; try done. intros _ [?|?]; [left; congruence|right; lia].
    + destruct (s_reserve m s xs k Hr) as (s' & m' & E & HR & Hf & _ & _ & Hcase).
      exists s', m'. split_and!; try done. intros _ Hm. destruct Hcase as [[-> _]|(_ & ? & _)]; done.
    + destruct (s_shrink m s xs Hr) as (s' & m' & ? & ? & ? & ?). eauto 8.
    + case_decide as Hi; [|done].
      destruct (s_set m s xs i a Hr Hi) as (m' & -> & Hr' & Hf). simpl. eauto 8.
  - case_decide as Hn; [|done].
    destruct (str_append_rep m s xs cs Hr Hn) as (s' & m' & ? & ? & ? & ?). eauto 8.
  - destruct (str_append_n_rep m s xs n c Hr) as (s' & m' & ? & ? & ? & ?). eauto 8.
  - case_decide as Hn; [|done].
    destruct (s_clear m s xs Hr) as (s1 & m1 & E1 & HR1 & Hf1 & Hc1 & Hd1 & _ & Hz1).
    destruct (str_append_rep m1 s1 [] cs HR1 Hn) as (s' & m' & E2 & HR2 & Hf2 & Hm2).
    exists s', m'. split.
    { unfold str_assign, assign_from. rewrite E1. cbn [bind]. exact E2. }
    split_and!; [done|by eapply frame_trans|].
    intros _ [?|?]; apply Hm2; [left; congruence|right; lia].
  - destruct (s_clear m s xs Hr) as (s1 & m1 & E1 & HR1 & Hf1 & Hc1 & Hd1 & _ & Hz1).
    destruct (str_append_n_rep m1 s1 [] n c HR1) as (s' & m' & E2 & HR2 & Hf2 & Hm2).
    exists s', m'. split.
    { unfold str_assign_n. rewrite E1. cbn [bind]. exact E2. }
    split_and!; [done|by eapply frame_trans|].
    intros _ [?|?]; apply Hm2; [left; congruence|right; lia].
  - case_decide as Hn; [|done]. case_decide as Hp.
    + destruct (str_insert_rep m s xs pos cs Hr Hp Hn) as (s' & m' & ? & ? & ?). by exists s', m'.
    + unfold str_insert, insert_from. by rewrite decide_True by lia.
  - case_decide as Hn; [|done]. case_decide as Hp.
    + destruct (str_insert_n_rep m s xs pos buf n Hr Hp Hn) as (s' & m' & ? & ? & ? & ?). eauto 8.
    + unfold str_insert_n. by rewrite decide_True by lia.
Qed.

Lemma str_run_rep ops : forall m s xs ts ys, srep m s xs ->
  chars_run ops xs = Some (ts, ys) ->
  exists s' m', str_run (call <$> ops) s m = Ok (ts, s', m') /\ srep m' s' ys /\ frame m s m' s' /\
    (forallb leaves_room ops = true -> roomy s -> roomy s').
Proof.
  induction ops as [|o ops IH]; intros m s xs ts ys Hr Hl; rewrite ?fmap_cons;
    cbn [fmap list_fmap str_run chars_run forallb] in *.
  - injection Hl as <- <-. exists s, m. split_and!; try done. apply frame_refl.
  - pose proof (str_step_rep o m s xs Hr) as Hst.
    destruct (chars_step o xs) as [l'| |] eqn:Eo; [..|done].
    + destruct Hst as (s1 & m1 & -> & Hr1 & Hf1 & Hm1).
      destruct (chars_run ops l') as [[ts' f]|] eqn:El; [|done]. injection Hl as <- <-.
      destruct (IH m1 s1 l' ts' f Hr1 El) as (s2 & m2 & -> & Hr2 & Hf2 & Hm2).
      simpl. exists s2, m2. split_and!; try done; [by eapply frame_trans|].
      intros [H1 H2]%andb_true_iff Hm. auto.
    + rewrite Hst. destruct (chars_run ops xs) as [[ts' f]|] eqn:El; [|done]. injection Hl as <- <-.
      destruct (IH m s xs ts' f Hr El) as (s2 & m2 & -> & Hr2 & Hf2 & Hm2).
      simpl. exists s2, m2. split_and!; try done.
      intros [H1 H2]%andb_true_iff Hm. auto.
Qed.

(** ** Construction *)
Lemma str_new_rep m src cs : (forall k c, cs !! k = Some c -> src k = Ok c) -> exists b m',
  str_new src (length cs) m = Ok (Vec (Blk b) (length cs) (length cs + 1), m') /\
  blk m' b ((Live <$> cs) ++ [Raw]) /\ b = length (blocks m) /\
  frame m vec_new m' (Vec (Blk b) (length cs) (length cs + 1)).
Proof.
  intros Hsrc. unfold str_new. destruct (alloc m (length cs + 1)) as [b m1] eqn:Ea.
  assert (Hb1 := alloc_blk _ _ _ _ Ea). assert (Hca := allocations_alloc _ _ _ _ Ea).
  assert (Hold := fun b' cells => alloc_old _ _ _ _ b' cells Ea).
  assert (Heb : b = length (blocks m)) by (by injection Ea).
  assert (Hl1 : leaks m1 = leaks m) by (injection Ea as _ <-; done).
  assert (Hlen1 : length (blocks m1) = S (length (blocks m))).
  { injection Ea as _ <-. simpl. rewrite app_length. simpl. lia. }
  assert (Hb2 := Hb1). rewrite replicate_add in Hb2. unfold copy_in.
  rewrite (fill_loop chr _ m1 b cs (replicate (length cs) Raw) (replicate 1 Raw) Hb2);
    [|by rewrite replicate_length|apply all_vacant|].
  2:{ intros i x cells Hx. rewrite (Hsrc _ _ Hx). done. }
  cbn [bind]. eexists _, _. split; [done|]. split; [by eapply blk_upd|]. split; [done|].
  split; [done|]. split.
  { intros b' cells _ Hb'. destruct (Hold _ _ Hb') as [? Hne]. split; [by apply blk_upd_ne|].
    simpl. congruence. }
  split; [simpl; intros b' [= <-]; right; lia|]. split; [rewrite length_upd; lia|].
  rewrite (allocations_upd _ _ _ _ Hb1). unfold held; simpl. lia.
Qed.

Lemma str_fill_rep m n c : exists b m',
  str_fill n c m = Ok (Vec (Blk b) n n, m') /\ blk m' b (Live <$> replicate n c) /\
  b = length (blocks m) /\ frame m vec_new m' (Vec (Blk b) n n).
Proof.
  unfold str_fill. destruct (alloc m n) as [b m1] eqn:Ea.
  assert (Hb1 := alloc_blk _ _ _ _ Ea). assert (Hca := allocations_alloc _ _ _ _ Ea).
  assert (Hold := fun b' cells => alloc_old _ _ _ _ b' cells Ea).
  assert (Heb : b = length (blocks m)) by (by injection Ea).
  assert (Hl1 : leaks m1 = leaks m) by (injection Ea as _ <-; done).
  assert (Hlen1 : length (blocks m1) = S (length (blocks m))).
  { injection Ea as _ <-. simpl. rewrite app_length. simpl. lia. }
  assert (HH : for_up n 0 (fun i m => assign chr m b i c) m1 =
    Ok (upd m1 b (Live <$> replicate n c))).
  { apply wp_eq. apply (wp_for_up (fun i m' => i <= n /\
      m' = upd m1 b ((Live <$> replicate i c) ++ replicate (n - i) Raw))).
    - simpl. rewrite Nat.sub_0_r. split; [lia|]. by rewrite upd_same.
    - intros k m' _ Hk [_ ->]. simpl in Hk.
      replace (n - k) with (S (n - S k)) by lia. simpl replicate at 2.
      erewrite (assign_triv chr _ b _ k); [|done|by eapply blk_upd|].
      2:{ rewrite lookup_app_r by (rewrite fmap_length, replicate_length; lia).
          rewrite fmap_length, replicate_length, Nat.sub_diag. done. }
      apply wp_ok. split; [lia|]. rewrite upd_upd. f_equal.
      rewrite insert_boundary by (rewrite fmap_length, replicate_length; lia).
      rewrite replicate_S_end, fmap_app. done.
    - intros m' [_ ->]. simpl. rewrite Nat.sub_diag. simpl. by rewrite app_nil_r. }
  rewrite HH. cbn [bind]. eexists _, _. split; [done|]. split; [by eapply blk_upd|]. split; [done|].
  split; [done|]. split.
  { intros b' cells _ Hb'. destruct (Hold _ _ Hb') as [? Hne]. split; [by apply blk_upd_ne|].
    simpl. congruence. }
  split; [simpl; intros b' [= <-]; right; lia|]. split; [rewrite length_upd; lia|].
  rewrite (allocations_upd _ _ _ _ Hb1). unfold held; simpl. lia.
Qed.

Lemma str_built_rep i m : sinit_ok i -> exists s m',
  str_built i m = Ok (s, m') /\ srep m' s (sinit_chars i) /\ frame m vec_new m' s /\
  (init_room i = true -> roomy s).
Proof.
  intros Hi. destruct i as [|xs|cs|buf n|n c]; simpl in *.
  - exists vec_new, m. split_and!; [done| |apply frame_refl|by left]. split; [done|by left].
  - destruct (vec_of_list_rep chr xs m) as (s & m' & E & Hr & Hf & _).
    exists s, m'. split_and!; [done|by apply vec_rep_w|done|intros _; by eapply strong_room].
  - unfold str_of_cstr. rewrite char_length_c by done. cbn [bind].
    destruct (str_new_rep m (get (c_string cs)) cs) as (b & m' & E & Hb & _ & Hf).
    { intros k c Hk. by apply get_c_string. }
    exists (Vec (Blk b) (length cs) (length cs + 1)), m'. split_and!; [done| |done|right; simpl; lia].
    by apply (srep_intro _ _ _ b [Raw]).
  - assert (Hln : length (take n buf) = n) by (rewrite take_length; lia).
    destruct (str_new_rep m (get buf) (take n buf)) as (b & m' & E & Hb & _ & Hf).
    { intros k c Hk. unfold get. apply lookup_take_Some in Hk as [-> _]. done. }
    rewrite Hln in *. exists (Vec (Blk b) n (n + 1)), m'. split_and!; [done| |done|right; simpl; lia].
    apply (srep_intro _ _ _ b [Raw]); try done. simpl. lia.
  - destruct (str_fill_rep m n c) as (b & m' & E & Hb & _ & Hf).
    exists (Vec (Blk b) n n), m'. split_and!; try done.
    apply (srep_intro _ _ _ b []); try done; simpl; rewrite ?app_nil_r, ?replicate_length; [done|done|lia].
Qed.

Lemma str_after_rep i ops m0 ts s m xs : sinit_ok i -> str_after i ops m0 ts s m ->
  chars_run ops (sinit_chars i) = Some (ts, xs) -> srep m s xs /\
  (init_room i = true -> forallb leaves_room ops = true -> roomy s).
Proof.
  intros Hi (s0 & m1 & E0 & E1) Hl.
  destruct (str_built_rep i m0 Hi) as (s0' & m1' & E0' & Hr0 & _ & Hm0).
  rewrite E0 in E0'. injection E0' as <- <-.
  destruct (str_run_rep ops m1 s0 _ ts xs Hr0 Hl) as (s' & m' & E1' & Hr & _ & Hm).
  rewrite E1 in E1'. injection E1' as <- <-. auto.
Qed.

(** ** Reading: at, substr, copy *)
Lemma str_at_ok m s xs pos : srep m s xs ->
  str_at s pos m = match xs !! pos with Some c => Ok c | None => Throw end.
Proof.
  intros Hr. assert (Hs : v_size s = length xs) by (by destruct Hr).
  unfold str_at. case_decide as Hp.
  - rewrite lookup_ge_None_2 by lia. done.
  - destruct (lookup_lt_is_Some_2 xs pos) as [c Hc]; [lia|]. rewrite Hc. by eapply srep_read.
Qed.

Lemma clamp_ok xs pos len : pos <= length xs ->
  (if decide (length xs - pos < len) then length xs - pos else len) = length (take len (drop pos xs)).
Proof. intros Hp. rewrite take_length, drop_length. case_decide; lia. Qed.

Lemma str_substr_ok m s xs pos len : srep m s xs ->
  if decide (pos <= length xs) then
    exists t m', str_substr s pos len m = Ok (t, m') /\ srep m' t (take len (drop pos xs)) /\ roomy t /\
      srep m' s xs /\ disj s t /\ frame m vec_new m' t
  else str_substr s pos len m = Throw.
Proof.
  intros Hr. assert (Hs : v_size s = length xs) by (by destruct Hr).
  unfold str_substr. rewrite Hs. case_decide as Hp; [|by rewrite decide_True by lia].
  rewrite decide_False by lia. cbv zeta. rewrite clamp_ok by done.
  destruct (str_new_rep m (fun i => pread m (v_data s) (pos + i)) (take len (drop pos xs)))
    as (b & m' & E & Hb & Hbe & Hf).
  { intros k c Hk. apply lookup_take_Some in Hk as [Hk _]. rewrite lookup_drop in Hk.
    by eapply srep_read. }
  eexists _, m'. split; [exact E|].
  assert (Hdj : disj s vec_new) by (by intros ? ?).
  destruct (frame_srep _ _ _ _ _ _ Hf Hr Hdj) as [Hr' Hd'].
  split_and!; try done; [by apply (srep_intro _ _ _ b [Raw])|right; simpl; lia].
Qed.

Lemma str_copy_ok m s xs count pos : srep m s xs ->
  str_copy_out s count pos m =
  if decide (pos <= length xs) then
    Ok (take count (drop pos xs), length (take count (drop pos xs))) else Throw.
Proof.
  intros Hr. assert (Hs : v_size s = length xs) by (by destruct Hr).
  unfold str_copy_out. rewrite Hs. destruct (decide (pos <= length xs)) as [Hp|Hp]; [|by rewrite decide_True by lia].
  rewrite decide_False by lia. cbv zeta. rewrite clamp_ok by done.
  set (cs := take count (drop pos xs)).
  assert (HH : for_up (length cs) 0 (fun i acc =>
    let* c := pread m (v_data s) (pos + i) in Ok (acc ++ [c])) [] = Ok cs).
  { apply wp_eq. apply (wp_for_up (fun i acc => acc = take i cs)).
    - by rewrite take_0.
    - intros k acc _ Hk ->. simpl in Hk. destruct (lookup_lt_is_Some_2 cs k Hk) as [c Hc].
      rewrite (srep_read m s xs (pos + k) c Hr).
      + simpl. apply wp_ok. symmetry. by apply take_S_r.
      + unfold cs in Hc. apply lookup_take_Some in Hc as [Hc _]. by rewrite lookup_drop in Hc.
    - intros acc ->. simpl. by rewrite firstn_all. }
  rewrite HH. done.
Qed.

(** ** Comparison *)
Lemma lex_nil_r xs : lex xs [] = if decide (xs = []) then 0%Z else 1%Z.
Proof. by destruct xs. Qed.

Lemma lex_eq xs : forall ys, lex xs ys = 0%Z <-> xs = ys.
Proof.
  induction xs as [|x xs IH]; intros [|y ys]; simpl; try (split; congruence).
  case_decide as H1; [split; [done|intros [= -> ->]; lia]|].
  case_decide as H2; [split; [done|intros [= -> ->]; lia]|].
  rewrite IH. assert (x = y) as -> by lia. split; [by intros ->|by intros [=]].
Qed.

Lemma lex_app_same l xs ys : lex (l ++ xs) (l ++ ys) = lex xs ys.
Proof. induction l as [|x l IH]; simpl; [done|]. rewrite !decide_False by lia. done. Qed.

(** Reading through [p] and [q] the first characters of xs and ys. *)
Lemma char_compare_ok p q n xs ys : length xs = n -> length ys = n ->
  (forall i x, xs !! i = Some x -> p i = Ok x) -> (forall i y, ys !! i = Some y -> q i = Ok y) ->
  char_compare p q n = Ok (lex xs ys).
Proof.
  intros Hx Hy Hp Hq. apply wp_eq. unfold char_compare.
  apply (wp_loop (fun i => i <= n /\ take i xs = take i ys) (fun i => n - i)); [lia|split; [lia|done]|].
  intros i [Hi Ht]. case_decide as Hin.
  - destruct (lookup_lt_is_Some_2 xs i) as [x Hxi]; [lia|].
    destruct (lookup_lt_is_Some_2 ys i) as [y Hyi]; [lia|].
    rewrite (Hp _ _ Hxi), (Hq _ _ Hyi). simpl.
    assert (HL : lex xs ys = lex (x :: drop (S i) xs) (y :: drop (S i) ys)).
    { rewrite <- (take_drop i xs) at 1. rewrite <- (take_drop i ys) at 1. rewrite Ht, lex_app_same.
      by rewrite (drop_S xs x i Hxi), (drop_S ys y i Hyi). }
    rewrite HL. simpl. case_decide as H1; [by apply wp_ok|]. case_decide as H2; [by apply wp_ok|].
    apply wp_ok. split; [|lia]. split; [lia|]. rewrite (take_S_r xs i x), (take_S_r ys i y) by done.
    rewrite Ht. assert (x = y) as -> by lia. done.
  - apply wp_ok. assert (i = n) as -> by lia.
    rewrite <- Hx in Ht at 1. rewrite firstn_all in Ht. rewrite <- Hy in Ht. rewrite firstn_all in Ht.
    by rewrite (proj2 (lex_eq xs ys) Ht).
Qed.

Lemma str_compare_ok m s o xs ys : srep m s xs -> srep m o ys -> length xs <= length ys ->
  str_compare s o m = Ok (lex xs (take (length xs) ys)).
Proof.
  intros Hr Ho Hl. unfold str_compare. assert (Hs : v_size s = length xs) by (by destruct Hr). rewrite Hs.
  apply char_compare_ok; [done|rewrite take_length; lia|..].
  - intros i x Hi. by eapply srep_read.
  - intros i y Hi. apply lookup_take_Some in Hi as [Hi _]. by eapply srep_read.
Qed.

Lemma str_compare_at_ok m s o xs ys pos len : srep m s xs -> srep m o ys ->
  if decide (pos <= length xs) then
    length (take len (drop pos xs)) <= length ys ->
    str_compare_at s pos len o m =
      Ok (lex (take len (drop pos xs)) (take (length (take len (drop pos xs))) ys))
  else str_compare_at s pos len o m = Throw.
Proof.
  intros Hr Ho. assert (Hs : v_size s = length xs) by (by destruct Hr).
  unfold str_compare_at. rewrite Hs. case_decide as Hp; [|by rewrite decide_True by lia].
  intros Hl. rewrite decide_False by lia. cbv zeta. rewrite clamp_ok by done.
  apply char_compare_ok; [done|rewrite (take_length ys); lia|..].
  - intros i x Hi. apply lookup_take_Some in Hi as [Hi _]. rewrite lookup_drop in Hi. by eapply srep_read.
  - intros i y Hi. apply lookup_take_Some in Hi as [Hi _]. by eapply srep_read.
Qed.

(** Past the end of [other]: the first characters agree, the next one of [other] cannot be read. *)
Lemma char_compare_past p q n k ys x e : length ys = k -> k < n ->
  (forall i y, ys !! i = Some y -> p i = Ok y) -> (forall i y, ys !! i = Some y -> q i = Ok y) ->
  p k = Ok x -> q k = UB e -> char_compare p q n = UB e.
Proof.
  intros Hk Hn Hp Hq Hpk Hqk. unfold char_compare.
  assert (forall d fuel, d <= k -> d < fuel -> loop fuel (fun i =>
    if decide (i < n) then
      let* x := p i in
      let* y := q i in
      if decide (x < y) then Ok (inr (-1)%Z)
      else if decide (y < x) then Ok (inr 1%Z)
      else Ok (inl (S i))
    else Ok (inr 0%Z)) (k - d) = UB e) as HH.
  { induction d as [|d IH]; intros [|fuel] Hd Hf; try lia; cbn [loop].
    - rewrite Nat.sub_0_r, decide_True by lia. rewrite Hpk. simpl. by rewrite Hqk.
    - rewrite decide_True by lia.
      destruct (lookup_lt_is_Some_2 ys (k - S d)) as [y Hy]; [lia|].
      rewrite (Hp _ _ Hy), (Hq _ _ Hy). simpl. rewrite !decide_False by lia. simpl.
      replace (S (k - S d)) with (k - d) by lia. apply IH; lia. }
  specialize (HH k (S n)). rewrite Nat.sub_diag in HH. apply HH; lia.
Qed.

Lemma str_eq_cstr_ok m s xs cs b : srep m s xs -> v_data s = Blk b -> nul_free cs ->
  exists r, str_eq_cstr s (c_string cs) m = Ok r /\ (r = true <-> xs = cs).
Proof.
  intros Hr Hd Hn. assert (Hs : v_size s = length xs) by (by destruct Hr).
  unfold str_eq_cstr. rewrite Hd. rewrite char_length_c by done. cbn [bind].
  case_decide as Hl. { exists false. split; [done|]. split; [done|]. intros ->. congruence. }
  rewrite (char_compare_ok _ _ _ xs cs); [|done|lia| |].
  - cbn [bind]. eexists. split; [done|]. rewrite bool_decide_eq_true. apply lex_eq.
  - intros i x Hi. rewrite <- Hd. by eapply srep_read.
  - intros i x Hi. by apply get_c_string.
Qed.

(** ** c_str *)
Lemma str_cstr_ok m s xs b : srep m s xs -> v_data s = Blk b -> v_size s < v_cap s -> exists m',
  str_cstr s m = Ok (Blk b, m') /\ srep m' s xs /\ frame m s m' s /\
  buffer_holds (Blk b) m' (xs ++ [0]).
Proof.
  intros [Hs [(Hd & -> & Hc)|(b' & rest & Hd & Hb & Hv & Hc)]] Hd' Hlt; [congruence|].
  assert (b' = b) as -> by congruence.
  destruct rest as [|c rest]; [simpl in *; lia|].
  unfold str_cstr, passign. rewrite Hd. cbn [with_ptr]. rewrite Hs.
  erewrite (assign_triv chr m b _ (length xs)); [|done|done|].
  2:{ rewrite lookup_app_r by (rewrite fmap_length; lia). rewrite fmap_length, Nat.sub_diag. done. }
  rewrite insert_boundary by (by rewrite fmap_length). cbn [bind].
  eexists. split; [done|].
  assert (HB : blk (upd m b (((Live <$> xs) ++ [Live 0]) ++ rest)) b (((Live <$> xs) ++ [Live 0]) ++ rest)).
  { by eapply blk_upd. }
  split; [|split].
  - apply (srep_intro _ _ _ b (Live 0 :: rest)); [done| |done|done].
    rewrite <- (assoc_L (++)) in HB at 2. exact HB.
  - destruct s as [d z k]. simpl in Hd. subst d. by eapply frame_upd.
  - intros i c' Hi. unfold pread, with_ptr. eapply read_ok; [exact HB|].
    change [Live 0] with (Live <$> [0]). rewrite <- fmap_app. by apply lookup_live_app.
Qed.

Lemma str_cstr_full m s xs b : srep m s xs -> v_data s = Blk b -> v_cap s = v_size s ->
  str_cstr s m = UB OutOfBounds.
Proof.
  intros [Hs [(Hd & -> & Hc)|(b' & rest & Hd & Hb & Hv & Hc)]] Hd' Hlt; [congruence|].
  assert (b' = b) as -> by congruence.
  unfold str_cstr, passign. rewrite Hd. cbn [with_ptr]. unfold assign.
  rewrite (with_block_blk _ _ _ _ Hb). rewrite lookup_ge_None_2; [done|].
  rewrite app_length, fmap_length. lia.
Qed.

Lemma str_cstr_null m s : v_data s = Null -> str_cstr s m = UB NullDeref.
Proof. intros H. unfold str_cstr, passign. by rewrite H. Qed.

(** ** Arguments that point into the string itself *)
Lemma push_own_ub m s xs i c : srep m s xs -> xs !! i = Some c -> v_cap s <= length xs + 1 ->
  vec_push_own chr s i m = UB UseAfterFree.
Proof.
  intros Hr Hi Hc. assert (Hlt := lookup_lt_Some _ _ _ Hi).
  assert (exists b, v_data s = Blk b) as [b Hd].
  { destruct Hr as [_ [(_ & -> & _)|(b & ? & ? & _)]]; [done|eauto]. }
  destruct (s_grow m s xs Hr) as (s1 & m1 & Eg & Hr1 & Hf1 & Hc1 & Hcase).
  destruct Hcase as [[-> ->]|[_ Hrel]]; [lia|].
  unfold vec_push_own. rewrite Eg. cbn [bind]. rewrite Hd. unfold pread, with_ptr, read, with_block.
  by rewrite (Hrel b Hd).
Qed.

Lemma push_own_ok m s xs i c : srep m s xs -> xs !! i = Some c -> length xs + 1 < v_cap s ->
  exists s' m', vec_push_own chr s i m = Ok (s', m') /\ srep m' s' (xs ++ [c]) /\ v_cap s' = v_cap s.
Proof.
  intros Hr Hi Hc.
  destruct (push_ref_rep m s xs (fun m => pread m (v_data s) i) c Hr) as (s' & m' & E & Hr' & _ & Hk).
  { intros s1 m1 Eg. destruct (s_grow m s xs Hr) as (s2 & m2 & Eg2 & _ & _ & _ & Hcase).
    rewrite Eg in Eg2. injection Eg2 as <- <-. destruct Hcase as [[-> ->]|[? _]]; [|lia].
    by eapply srep_read. }
  exists s', m'. split; [exact E|]. split; [by apply vec_rep_w|]. by apply Hk.
Qed.

Lemma plus_self_loop fuel : forall i m s xs, srep m s xs -> i < length xs ->
  (v_cap s - length xs < fuel -> loop fuel (fun '(i, s, m) =>
    if decide (i < v_size s) then
      let* (s, m) := vec_push_own chr s i m in Ok (inl (S i, s, m))
    else Ok (inr (s, m))) (i, s, m) = UB UseAfterFree) /\
  (forall r, loop fuel (fun '(i, s, m) =>
    if decide (i < v_size s) then
      let* (s, m) := vec_push_own chr s i m in Ok (inl (S i, s, m))
    else Ok (inr (s, m))) (i, s, m) <> Ok r).
Proof.
  induction fuel as [|fuel IH]; intros i m s xs Hr Hi; [split; [lia|done]|]. cbn [loop].
  assert (Hs : v_size s = length xs) by (by destruct Hr). rewrite decide_True by lia.
  destruct (lookup_lt_is_Some_2 xs i Hi) as [c Hc].
  destruct (decide (v_cap s <= length xs + 1)) as [Hcap|Hcap].
  - rewrite (push_own_ub m s xs i c Hr Hc Hcap). simpl. done.
  - destruct (push_own_ok m s xs i c Hr Hc) as (s' & m' & -> & Hr' & Hk); [lia|]. cbn [bind].
    destruct (IH (S i) m' s' (xs ++ [c]) Hr') as [H1 H2]; [rewrite app_length; simpl; lia|].
    split; [|done]. intros Hf. apply H1. rewrite app_length, Hk. simpl. lia.
Qed.

Lemma buffer_char_length fuel p m xs : nul_free xs -> buffer_holds p m (xs ++ [0]) -> length xs < fuel ->
  char_length fuel (own p m) = Ok (length xs).
Proof. intros Hn Hb Hf. apply char_length_ok; [done| |done]. intros i c Hi. by apply Hb. Qed.

(** push_back of characters of the own buffer, as long as nothing reallocates: the characters
    [0..k) of [xs] are pushed onto [ys], which starts with [xs] or is a prefix of it. *)
Lemma push_ref_same m s ys b c i : srep m s ys -> v_data s = Blk b -> length ys + 1 < v_cap s ->
  pread m (Blk b) i = Ok c -> exists s' m',
  push_ref s (fun m => own (Blk b) m i) m = Ok (s', m') /\ srep m' s' (ys ++ [c]) /\
  v_data s' = Blk b /\ v_cap s' = v_cap s /\
  (forall j, j <> length ys -> pread m' (Blk b) j = pread m (Blk b) j) /\ frame m s m' s'.
Proof.
  intros Hr Hd Hc Hp. destruct (s_grow m s ys Hr) as (s1 & m1 & Eg & Hr1 & Hf1 & Hc1 & Hcase).
  destruct Hcase as [[-> ->]|[? _]]; [|lia].
  assert (Hs : v_size s = length ys) by (by destruct Hr).
  destruct Hr1 as [_ [(Hn & _)|(b' & rest & Hd' & Hb & _ & Hcap & H1)]]; [congruence|].
  assert (b' = b) as -> by congruence.
  destruct rest as [|c0 rest]; [simpl in *; lia|].
  unfold push_ref. rewrite Eg. cbn [bind]. unfold own. rewrite Hp. cbn [bind]. rewrite Hd.
  unfold pconstruct, with_ptr.
  rewrite (construct_vacant chr m b _ (v_size s) c0 c Hb).
  2:{ rewrite lookup_app_r by (rewrite fmap_length; lia). rewrite fmap_length, Hs, Nat.sub_diag. done. }
  2:{ by right. }
  cbn [bind]. eexists _, _. split; [done|]. split_and!; try done.
  - apply (srep_intro _ _ _ b rest); [done| |simpl; rewrite app_length; simpl; lia|
      simpl in *; rewrite app_length; simpl; lia].
    rewrite insert_boundary by (by rewrite fmap_length). rewrite fmap_app. by eapply blk_upd.
  - intros j Hj. unfold pread, with_ptr, read.
    rewrite (with_block_blk m b _ _ Hb). erewrite with_block_blk by (by eapply blk_upd).
    rewrite list_lookup_insert_ne by lia. done.
  - by eapply frame_upd.
Qed.

Lemma append_own_ok m s xs b : srep m s xs -> v_data s = Blk b -> nul_free xs ->
  2 * length xs < v_cap s -> exists s' m', str_append_own s m = Ok (s', m') /\ srep m' s' (xs ++ xs).
Proof.
  intros Hr Hd Hn Hcap. assert (Hs : v_size s = length xs) by (by destruct Hr).
  unfold str_append_own.
  destruct (str_cstr_ok m s xs b Hr Hd) as (m1 & -> & Hr1 & Hf1 & Hbuf); [lia|]. cbn [bind].
  unfold append_from. rewrite (buffer_char_length _ _ _ xs) by (done || lia). cbn [bind].
  assert (HH : wp (for_up (length xs) 0 (fun i '(s, m) => push_ref s (fun m => own (Blk b) m i) m) (s, m1))
     (fun '(s', m') => srep m' s' (xs ++ xs))).
  { apply (wp_for_up (fun i '(s', m') => srep m' s' (xs ++ take i xs) /\ v_data s' = Blk b /\ v_cap s' = v_cap s)).
    - by rewrite take_0, app_nil_r.
    - intros k [s1 m2] _ Hk (Hr2 & Hd2 & Hc2). simpl in Hk.
      destruct (lookup_lt_is_Some_2 xs k Hk) as [c Hc].
      destruct (push_ref_same m2 s1 (xs ++ take k xs) b c k Hr2 Hd2) as (s2 & m3 & -> & Hr3 & Hd3 & Hc3 & _).
      { rewrite app_length, take_length. lia. }
      { rewrite <- Hd2. eapply srep_read; [done|]. by apply lookup_app_l_Some. }
      apply wp_ok. rewrite (take_S_r xs k c) by done. rewrite (assoc_L (++)). split_and!; congruence.
    - intros [s' m']. simpl. rewrite firstn_all. tauto. }
  destruct HH as ([s' m'] & E & H). exists s', m'. done.
Qed.

Lemma push_ref_ub m s ys b i : srep m s ys -> v_data s = Blk b -> v_cap s <= length ys + 1 ->
  push_ref s (fun m => own (Blk b) m i) m = UB UseAfterFree.
Proof.
  intros Hr Hd Hc. destruct (s_grow m s ys Hr) as (s1 & m1 & Eg & Hr1 & Hf1 & Hc1 & Hcase).
  destruct Hcase as [[-> ->]|[_ Hrel]]; [lia|].
  unfold push_ref. rewrite Eg. cbn [bind]. unfold own, pread, with_ptr, read, with_block.
  by rewrite (Hrel b Hd).
Qed.

Lemma append_own_ub m s xs b : srep m s xs -> v_data s = Blk b -> nul_free xs -> xs <> [] ->
  v_size s < v_cap s <= 2 * length xs -> str_append_own s m = UB UseAfterFree.
Proof.
  intros Hr Hd Hn Hne Hcap. assert (Hs : v_size s = length xs) by (by destruct Hr).
  unfold str_append_own.
  destruct (str_cstr_ok m s xs b Hr Hd) as (m1 & -> & Hr1 & Hf1 & Hbuf); [lia|]. cbn [bind].
  unfold append_from. rewrite (buffer_char_length _ _ _ xs) by (done || lia). cbn [bind].
  assert (HH : forall n k s2 m2, k + n = length xs -> srep m2 s2 (xs ++ take k xs) -> v_data s2 = Blk b ->
     v_cap s2 = v_cap s -> length xs + k < v_cap s ->
     for_up n k (fun i '(s, m) => push_ref s (fun m => own (Blk b) m i) m) (s2, m2) = UB UseAfterFree).
  { induction n as [|n IH]; intros k s2 m2 Hkn Hr2 Hd2 Hc2 Hlt; [lia|]. cbn [for_up].
    destruct (lookup_lt_is_Some_2 xs k) as [c Hc]; [lia|].
    assert (Hly : length (xs ++ take k xs) = length xs + k) by (rewrite app_length, take_length; lia).
    destruct (decide (v_cap s <= length xs + k + 1)) as [Hfull|Hfree].
    - rewrite (push_ref_ub m2 s2 _ b k Hr2 Hd2) by lia. done.
    - destruct (push_ref_same m2 s2 (xs ++ take k xs) b c k Hr2 Hd2) as (s3 & m3 & -> & Hr3 & Hd3 & Hc3 & _).
      { lia. }
      { rewrite <- Hd2. eapply srep_read; [done|]. by apply lookup_app_l_Some. }
      cbn [bind]. apply IH; [lia| |done|congruence|lia].
      rewrite (take_S_r xs k c) by done. by rewrite (assoc_L (++)). }
  apply HH; [lia|rewrite take_0, app_nil_r; done|done|done|lia].
Qed.

Lemma assign_own_ok m s xs b : srep m s xs -> v_data s = Blk b -> nul_free xs ->
  length xs < v_cap s -> exists s' m', str_assign_own s m = Ok (s', m') /\ srep m' s' xs.
Proof.
  intros Hr Hd Hn Hcap. assert (Hs : v_size s = length xs) by (by destruct Hr).
  unfold str_assign_own.
  destruct (str_cstr_ok m s xs b Hr Hd) as (m1 & -> & Hr1 & Hf1 & Hbuf); [lia|]. cbn [bind].
  unfold assign_from. destruct (s_clear m1 s xs Hr1) as (s1 & m1' & -> & Hr2 & _ & Hc2 & Hd2 & -> & Hz).
  cbn [bind].
  unfold append_from. rewrite (buffer_char_length _ _ _ xs) by (done || lia). cbn [bind].
  assert (HH : wp (for_up (length xs) 0 (fun i '(s, m) => push_ref s (fun m => own (Blk b) m i) m) (s1, m1))
     (fun '(s', m') => srep m' s' xs)).
  { apply (wp_for_up (fun i '(s', m') => srep m' s' (take i xs) /\ v_data s' = Blk b /\ v_cap s' = v_cap s /\
       forall j c, i <= j -> xs !! j = Some c -> pread m' (Blk b) j = Ok c)).
    - rewrite take_0. split_and!; [done|congruence|done|]. intros j c _ Hj. apply Hbuf.
      by apply lookup_app_l_Some.
    - intros k [s2 m2] _ Hk (Hr3 & Hd3 & Hc3 & Hrd). simpl in Hk.
      destruct (lookup_lt_is_Some_2 xs k Hk) as [c Hc].
      assert (Hlk : length (take k xs) = k) by (rewrite take_length; lia).
      destruct (push_ref_same m2 s2 (take k xs) b c k Hr3 Hd3) as (s3 & m3 & -> & Hr4 & Hd4 & Hc4 & Hsame & _).
      { lia. }
      { by apply Hrd. }
      apply wp_ok. rewrite (take_S_r xs k c) by done. split_and!; try congruence.
      intros j c' Hj Hj'. rewrite Hsame by lia. apply Hrd; [lia|done].
    - intros [s' m']. simpl. rewrite firstn_all. tauto. }
  destruct HH as ([s' m'] & E & H). exists s', m'. done.
Qed.

Lemma insert_own_ub m s xs b pos : srep m s xs -> v_data s = Blk b -> nul_free xs -> xs <> [] ->
  pos <= length xs -> v_size s < v_cap s < 2 * length xs -> str_insert_own s pos m = UB UseAfterFree.
Proof.
  intros Hr Hd Hn Hne Hp Hcap. assert (Hs : v_size s = length xs) by (by destruct Hr).
  unfold str_insert_own.
  destruct (str_cstr_ok m s xs b Hr Hd) as (m1 & -> & Hr1 & Hf1 & Hbuf); [lia|]. cbn [bind].
  unfold insert_from. rewrite decide_False by lia.
  rewrite (buffer_char_length _ _ _ xs) by (done || lia). cbn [bind].
  destruct (s_reserve m1 s xs (v_size s + length xs) Hr1) as (s2 & m2 & -> & Hr2 & _ & Hc2 & Hs2 & Hcase).
  destruct Hcase as [[-> ->]|(_ & _ & Hrel)]; [lia|]. cbn [bind].
  pose proof (Hrel b Hd) as Hgone.
  unfold str_open.
  assert (exists b2 rest, v_data s2 = Blk b2 /\ blk m2 b2 ((Live <$> xs) ++ rest) /\
    v_cap s2 = length xs + length rest) as (b2 & rest & Hd2 & Hb2 & Hc3).
  { destruct Hr2 as [_ [(_ & -> & _)|(b2 & rest & ? & ? & _ & ?)]]; [done|eauto 6]. }
  assert (Hbb : b2 <> b). { intros ->. unfold blk in Hb2. congruence. }
  assert (HH : wp (for_down (v_size s2) pos (fun k m =>
      let* c := pread m (v_data s2) k in passign chr m (v_data s2) (k + length xs) c) m2)
      (fun m' => blocks m' !! b = Some None)).
  { apply (wp_for_down (fun k m' => blocks m' !! b = Some None /\
      exists rest', length rest' = v_cap s2 - k /\ blk m' b2 ((Live <$> take k xs) ++ rest'))); [lia| | |by intros ? [? _]].
    - split; [done|]. exists rest. split; [lia|]. rewrite Hs2, Hs, firstn_all. done.
    - intros k m' Hk1 Hk2 (Hg & rest' & Hl' & Hb').
      destruct (lookup_lt_is_Some_2 xs k) as [x Hx]; [lia|].
      rewrite Hd2. unfold pread, passign, with_ptr.
      rewrite (read_ok m' b2 _ k x Hb').
      2:{ apply lookup_live_app. rewrite lookup_take by lia. done. }
      cbn [bind]. rewrite (take_S_r xs k x) in Hb' by done. rewrite fmap_app, <- (assoc_L (++)) in Hb'.
      assert (Hlk : length (Live <$> take k xs) = k) by (rewrite fmap_length, take_length; lia).
      destruct (lookup_lt_is_Some_2 ((Live <$> take k xs) ++ (Live <$> [x]) ++ rest') (k + length xs)) as [c Hc].
      { rewrite !app_length, Hlk, Hl'. simpl. lia. }
      rewrite (assign_triv chr m' b2 _ (k + length xs) x c) by done.
      apply wp_ok. split. { unfold upd; simpl. by rewrite list_lookup_insert_ne. }
      exists (<[length xs := Live x]> ((Live <$> [x]) ++ rest')).
      split. { rewrite insert_length, app_length, Hl'. simpl. lia. }
      rewrite (insert_app_r_alt (Live <$> take k xs)) by lia. rewrite Hlk.
      replace (k + length xs - k) with (length xs) by lia. by eapply blk_upd. }
  destruct HH as (m3 & -> & Hg3). cbn [bind].
  destruct (length xs) as [|n] eqn:Hlx; [by apply nil_length_inv in Hlx|]. cbn [for_up].
  unfold own, pread at 1, with_ptr at 1, read, with_block. by rewrite Hg3.
Qed.

(** ** Histories from the outside *)
Lemma str_after_ex i ops m0 ts xs : sinit_ok i -> chars_run ops (sinit_chars i) = Some (ts, xs) ->
  exists s m, str_after i ops m0 ts s m.
Proof.
  intros Hi Hl. destruct (str_built_rep i m0 Hi) as (s0 & m1 & E0 & Hr0 & _ & _).
  destruct (str_run_rep ops m1 s0 _ ts xs Hr0 Hl) as (s' & m' & E1 & _).
  exists s', m', s0, m1. done.
Qed.

Lemma str_after_inv i ops m0 ts ts' s m xs : sinit_ok i -> str_after i ops m0 ts' s m ->
  chars_run ops (sinit_chars i) = Some (ts, xs) -> ts' = ts /\ srep m s xs /\
  (init_room i = true -> forallb leaves_room ops = true -> roomy s) /\ frame m0 vec_new m s.
Proof.
  intros Hi (s0 & m1 & E0 & E1) Hl.
  destruct (str_built_rep i m0 Hi) as (s0' & m1' & E0' & Hr0 & Hf0 & Hm0).
  rewrite E0 in E0'. injection E0' as <- <-.
  destruct (str_run_rep ops m1 s0 _ ts xs Hr0 Hl) as (s' & m' & E1' & Hr & Hf & Hm).
  rewrite E1 in E1'. injection E1' as -> <- <-. split_and!; auto. by eapply frame_trans.
Qed.

Lemma two_strings_inv i1 ops1 i2 ops2 s o m ts1 ts2 xs ys : sinit_ok i1 -> sinit_ok i2 ->
  chars_run ops1 (sinit_chars i1) = Some (ts1, xs) -> chars_run ops2 (sinit_chars i2) = Some (ts2, ys) ->
  two_strings i1 ops1 i2 ops2 s o m -> srep m s xs /\ srep m o ys /\ disj s o /\ disj o s.
Proof.
  intros Hi1 Hi2 Hl1 Hl2 (t1 & t2 & m1 & H1 & H2).
  destruct (str_after_inv _ _ _ _ _ _ _ _ Hi1 H1 Hl1) as (_ & Hr1 & _ & _).
  destruct (str_after_inv _ _ _ _ _ _ _ _ Hi2 H2 Hl2) as (_ & Hr2 & _ & Hf).
  destruct (frame_srep _ _ _ _ s xs Hf Hr1) as [Hr1' Hd]; [by intros ? ?|].
  split_and!; try done. intros b Hb Hb'. by apply (Hd b).
Qed.

Lemma two_strings_ex i1 ops1 i2 ops2 ts1 ts2 xs ys : sinit_ok i1 -> sinit_ok i2 ->
  chars_run ops1 (sinit_chars i1) = Some (ts1, xs) -> chars_run ops2 (sinit_chars i2) = Some (ts2, ys) ->
  exists s o m, two_strings i1 ops1 i2 ops2 s o m.
Proof.
  intros Hi1 Hi2 Hl1 Hl2. destruct (str_after_ex i1 ops1 mem0 ts1 xs Hi1 Hl1) as (s & m1 & H1).
  destruct (str_after_ex i2 ops2 m1 ts2 ys Hi2 Hl2) as (o & m & H2).
  exists s, o, m, ts1, ts2, m1. done.
Qed.

Lemma srep_get_blk m s xs : srep m s xs -> v_data s = Null \/ exists b, v_data s = Blk b.
Proof. intros [_ [(? & _)|(b & ? & ? & _)]]; eauto. Qed.

(** "abc".compare("ab"), for any content: the terminator slot of the argument is raw. *)
Lemma compare_past_fresh xs x tl m0 s m1 o m : nul_free (xs ++ x :: tl) ->
  str_built (ICstr (xs ++ x :: tl)) m0 = Ok (s, m1) -> str_built (ICstr xs) m1 = Ok (o, m) ->
  str_compare s o m = UB Uninit.
Proof.
  intros Hn E1 E2. assert (Hnx : nul_free xs) by (by apply Forall_app in Hn as [? _]).
  destruct (str_built_rep (ICstr (xs ++ x :: tl)) m0 Hn) as (s' & m1' & E1' & Hr1 & _ & _).
  rewrite E1 in E1'. injection E1' as <- <-.
  simpl in E2. unfold str_of_cstr in E2. rewrite char_length_c in E2 by done. cbn [bind] in E2.
  destruct (str_new_rep m1 (get (c_string xs)) xs) as (b & m' & E & Hb & _ & Hf).
  { intros k c Hk. by apply get_c_string. }
  rewrite E in E2. injection E2 as <- <-.
  destruct (frame_srep _ _ _ _ s _ Hf Hr1) as [Hr1' _]; [by intros ? ?|].
  unfold str_compare. simpl v_data.
  assert (Hs : v_size s = length (xs ++ x :: tl)) by (by destruct Hr1'). rewrite Hs.
  eapply (char_compare_past _ _ _ (length xs) xs x); [done|rewrite app_length; simpl; lia|..].
  - intros i y Hi. eapply srep_read; [done|]. by apply lookup_app_l_Some.
  - intros i y Hi. unfold pread, with_ptr. eapply read_ok; [done|]. by apply lookup_live_app.
  - eapply srep_read; [exact Hr1'|]. simpl sinit_chars. rewrite lookup_app_r by lia. by rewrite Nat.sub_diag.
  - unfold pread, with_ptr, read. rewrite (with_block_blk _ _ _ _ Hb).
    rewrite lookup_app_r by (rewrite fmap_length; lia). rewrite fmap_length, Nat.sub_diag. done.
Qed.

Lemma lex_prefix xs y ys : lex xs (xs ++ y :: ys) = (-1)%Z.
Proof. induction xs as [|x xs IH]; simpl; [done|]. by rewrite !decide_False by lia. Qed.

Lemma lex_not_prefix xs : forall ys, length xs <= length ys -> (~ exists y tl, ys = xs ++ y :: tl) ->
  lex xs (take (length xs) ys) = lex xs ys.
Proof.
  induction xs as [|x xs IH]; intros [|y ys] Hl Hn; simpl in *; try done; try lia.
  - destruct Hn. by exists y, ys.
  - case_decide as H1; [done|]. case_decide as H2; [done|]. assert (x = y) as -> by lia.
    apply IH; [lia|]. intros (z & tl & ->). apply Hn. exists z, tl. done.
Qed.

(** ** Views *)
Lemma sview_eq_cstr_ok m s xs cs b : srep m s xs -> v_data s = Blk b -> nul_free cs -> exists v r,
  sview_of_str s = Ok v /\ view_iter v m = Ok xs /\
  sview_eq_cstr v (c_string cs) m = Ok r /\ (r = true <-> xs = cs).
Proof.
  intros Hr Hd Hn. assert (Hs : v_size s = length xs) by (by destruct Hr).
  unfold sview_of_str. rewrite Hd.
  assert (Hg : forall i x, xs !! i = Some x -> view_get (View (CAt b 0) (v_size s) (Some 0)) i m = Ok x).
  { intros i x Hi. pose proof (srep_read _ _ _ _ _ Hr Hi) as H. rewrite Hd in H. exact H. }
  assert (exists r, sview_eq_cstr (View (CAt b 0) (v_size s) (Some 0)) (c_string cs) m = Ok r /\
    (r = true <-> xs = cs)) as (r & Er & Hrr).
  { unfold sview_eq_cstr. cbn [w_data w_size].
    rewrite char_length_c by done. cbn [bind].
    case_decide as Hl. { exists false. split; [done|]. split; [done|]. intros ->. congruence. }
    rewrite (char_compare_ok _ _ _ xs cs); [|done|lia|done|].
    - cbn [bind]. eexists. split; [done|]. rewrite bool_decide_eq_true. apply lex_eq.
    - intros i x Hi. by apply get_c_string. }
  eexists _, r. split; [done|]. split; [|done].
  apply wp_eq. unfold view_iter. cbn [w_size].
  apply (wp_for_up (fun i acc => acc = take i xs)).
  - by rewrite take_0.
  - intros k acc _ Hk ->. rewrite Hs in Hk. simpl in Hk.
    destruct (lookup_lt_is_Some_2 xs k Hk) as [x Hx].
    rewrite (Hg _ _ Hx). simpl. apply wp_ok. symmetry. by apply take_S_r.
  - intros acc ->. simpl. rewrite Hs. by rewrite firstn_all.
Qed.

Lemma sview_of_cstr_ok m b off cs cells : blk m b cells -> nul_free cs ->
  (forall i c, c_string cs !! i = Some c -> cells !! (off + i) = Some (Live c)) ->
  exists v, sview_of_cstr b off m = Ok v /\ view_iter v m = Ok cs.
Proof.
  intros Hb Hn Hc. unfold sview_of_cstr. assert (Hb' := Hb). unfold blk in Hb'. rewrite Hb'.
  assert (Hrd : forall i c, c_string cs !! i = Some c -> read m b (off + i) = Ok c).
  { intros i c Hi. eapply read_ok; [done|]. by apply Hc. }
  rewrite (char_length_ok _ _ cs); [|done|done|].
  2:{ assert (HL : cells !! (off + length cs) = Some (Live 0)).
      { apply Hc. unfold c_string. by rewrite list_lookup_middle. }
      apply lookup_lt_Some in HL. lia. }
  cbn [bind]. eexists. split; [done|].
  apply wp_eq. unfold view_iter. cbn [w_size].
  apply (wp_for_up (fun i acc => acc = take i cs)).
  - by rewrite take_0.
  - intros k acc _ Hk ->. simpl in Hk. destruct (lookup_lt_is_Some_2 cs k Hk) as [x Hx].
    unfold view_get. simpl. rewrite (Hrd k x).
    + simpl. apply wp_ok. symmetry. by apply take_S_r.
    + unfold c_string. by apply lookup_app_l_Some.
  - intros acc ->. simpl. by rewrite firstn_all.
Qed.

Lemma sview_eq_other s o bs bo : v_data s = Blk bs -> v_data o = Blk bo -> bs <> bo ->
  exists v w, sview_of_str s = Ok v /\ sview_of_str o = Ok w /\ sview_eq v w = Ok false.
Proof.
  intros Hs Ho Hne. unfold sview_of_str. rewrite Hs, Ho. eexists _, _. split; [done|]. split; [done|].
  unfold sview_eq, vview_eq. simpl. rewrite (proj2 (Nat.eqb_neq bs bo)) by done. done.
Qed.

Lemma str_destroy_rep m s xs : srep m s xs -> exists m', vec_destroy chr s m = Ok m' /\
  leaks m' = leaks m /\ allocations m' + held s = allocations m.
Proof.
  intros Hr. unfold vec_destroy.
  destruct (destroy_all_repw chr m s xs Hr) as [(Hd & -> & Hc & Eq)|
    (b & rest & Hd & Hv & Hl & (cells & Hb) & Eq)].
  - rewrite Hd. exists m. unfold held. rewrite Hd. split_and!; auto.
  - rewrite Hd in *. rewrite Eq. cbn [bind].
    assert (Hb2 : blk (upd m b rest) b rest) by (by eapply blk_upd).
    rewrite (free_ok chr _ b rest Hb2) by (by left).
    eexists. split; [done|]. split; [done|].
    pose proof (allocations_free _ b rest (leaks (upd m b rest)) Hb2) as Hf.
    rewrite (allocations_upd m b cells) in Hf by done. unfold held. rewrite Hd. lia.
Qed.
