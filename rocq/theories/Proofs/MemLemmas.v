(** Loops that fill, copy or destroy a block. *)
From Verif Require Import Base.Cpp Base.Mem.
Set Default Proof Using "Type".

Section lemmas.
Context {A : Type} (E : ety A).

Lemma wp_eq {B} (r : res B) b : wp r (eq b) -> r = Ok b.
Proof. by intros (? & -> & ->). Qed.

Lemma wp_of_eq {B} (r : res B) b (Q : B -> Prop) : r = Ok b -> Q b -> wp r Q.
Proof. intros -> H. by exists b. Qed.

(** Cells [xs] constructed, rest as in [tl]. *)
Lemma lookup_live_app (xs : list A) tl i x :
  xs !! i = Some x -> ((Live <$> xs) ++ tl) !! i = Some (Live x).
Proof. intros H. apply lookup_app_l_Some. by rewrite list_lookup_fmap, H. Qed.

Lemma insert_boundary {B} (l1 l2 : list B) i x y :
  i = length l1 -> <[i := x]> (l1 ++ y :: l2) = (l1 ++ [x]) ++ l2.
Proof.
  intros ->. rewrite insert_app_r_alt by lia. rewrite Nat.sub_diag. simpl.
  by rewrite <- (assoc_L (++)).
Qed.

(** Constructing [xs] one after the other in vacant cells [old]. *)
Lemma fill_loop (body : nat -> mem A -> res (mem A)) m b (xs : list A) old rest :
  blk m b (old ++ rest) -> length old = length xs -> Forall (vacant E) old ->
  (forall i x cs, xs !! i = Some x -> body i (upd m b cs) = construct E (upd m b cs) b i x) ->
  for_up (length xs) 0 body m = Ok (upd m b ((Live <$> xs) ++ rest)).
Proof.
  intros Hb Hl Hv Hbody. apply wp_eq.
  apply (wp_for_up (fun i m' => m' = upd m b ((Live <$> take i xs) ++ drop i old ++ rest))).
  - simpl. by rewrite drop_0, upd_same.
  - intros k m' _ Hk ->. simpl in Hk.
    destruct (lookup_lt_is_Some_2 xs k Hk) as [x Hx].
    destruct (lookup_lt_is_Some_2 old k) as [c Hc]; [lia|].
    rewrite (drop_S _ _ _ Hc).
    eapply wp_of_eq.
    { rewrite (Hbody k x) by done.
      eapply (construct_vacant E _ _ _ _ c).
      - by eapply blk_upd.
      - rewrite lookup_app_r by (rewrite fmap_length, take_length; lia).
        rewrite fmap_length, take_length. by replace (k - Nat.min k (length xs)) with 0 by lia.
      - by eapply (Forall_lookup_1 _ _ _ _ Hv Hc). }
    cbv beta. rewrite upd_upd. f_equal. erewrite take_S_r by done. rewrite fmap_app.
    apply insert_boundary. rewrite fmap_length, take_length. lia.
  - intros m' ->. simpl. by rewrite firstn_all, drop_ge by lia.
Qed.

(** Moving [xs] out of block [bo] one by one into vacant cells of [b]. *)
Lemma move_loop (body : nat -> mem A -> res (mem A)) m b bo (xs : list A) old rest resto :
  b <> bo -> blk m b (old ++ rest) -> blk m bo ((Live <$> xs) ++ resto) ->
  length old = length xs -> Forall (vacant E) old ->
  (forall i x m', xs !! i = Some x -> body i m' =
      let* (x, m'') := move_out E m' bo i in construct E m'' b i x) ->
  for_up (length xs) 0 body m =
    Ok (upd (upd m bo ((Live <$> (mvd E <$> xs)) ++ resto)) b ((Live <$> xs) ++ rest)).
Proof.
  intros Hne Hb Hbo Hl Hv Hbody. apply wp_eq.
  apply (wp_for_up (fun i m' => m' =
    upd (upd m bo ((Live <$> ((mvd E <$> take i xs) ++ drop i xs)) ++ resto)) b
        ((Live <$> take i xs) ++ drop i old ++ rest))).
  - simpl. rewrite !drop_0. by rewrite (upd_same m bo), (upd_same m b).
  - intros k m' _ Hk ->. simpl in Hk.
    destruct (lookup_lt_is_Some_2 xs k Hk) as [x Hx].
    destruct (lookup_lt_is_Some_2 old k) as [c Hc]; [lia|].
    rewrite (drop_S old _ _ Hc).
    assert (Hxk : (mvd E <$> take k xs) !! (k - 0) = None).
    { apply lookup_ge_None_2. rewrite fmap_length, take_length. lia. }
    eapply wp_of_eq.
    { rewrite (Hbody k x) by done.
      erewrite (move_out_live E _ bo _ k x).
      - cbn [bind]. eapply (construct_vacant E _ b _ k c).
        + apply blk_upd_ne; [done|]. eapply blk_upd. by eapply blk_upd_ne.
        + rewrite lookup_app_r by (rewrite fmap_length, take_length; lia).
          rewrite fmap_length, take_length. by replace (k - Nat.min k (length xs)) with 0 by lia.
        + by eapply (Forall_lookup_1 _ _ _ _ Hv Hc).
      - eapply blk_upd_ne; [done|]. by eapply blk_upd.
      - apply lookup_live_app. rewrite lookup_app_r by (rewrite fmap_length, take_length; lia).
        rewrite fmap_length, take_length. replace (k - Nat.min k (length xs)) with 0 by lia.
        by rewrite lookup_drop, Nat.add_0_r. }
    cbv beta. rewrite (upd_comm _ b bo) by done. rewrite upd_upd, upd_upd.
    f_equal.
    + f_equal. rewrite (drop_S xs _ _ Hx). erewrite take_S_r by done.
      rewrite !fmap_app. rewrite <- !(assoc_L (++)).
      rewrite fmap_cons. simpl.
      rewrite insert_boundary by (rewrite !fmap_length, take_length; lia).
      by rewrite <- (assoc_L (++)).
    + erewrite take_S_r by done. rewrite fmap_app.
      apply insert_boundary. rewrite fmap_length, take_length. lia.
  - intros m' ->. simpl. rewrite firstn_all, !drop_ge by lia. simpl. by rewrite app_nil_r.
Qed.

(** Destroying live cells [xs]. *)
Lemma destroy_loop (body : nat -> mem A -> res (mem A)) m b (xs : list A) rest :
  blk m b ((Live <$> xs) ++ rest) ->
  (forall i x m', xs !! i = Some x -> body i m' = destroy E m' b i) ->
  for_up (length xs) 0 body m = Ok (upd m b ((dead E <$> (Live <$> xs)) ++ rest)).
Proof.
  intros Hb Hbody. apply wp_eq.
  apply (wp_for_up (fun i m' => m' =
     upd m b ((dead E <$> (Live <$> take i xs)) ++ (Live <$> drop i xs) ++ rest))).
  - simpl. by rewrite drop_0, upd_same.
  - intros k m' _ Hk ->. simpl in Hk.
    destruct (lookup_lt_is_Some_2 xs k Hk) as [x Hx].
    eapply wp_of_eq.
    { rewrite (Hbody k x) by done. eapply (destroy_live E _ _ _ k x).
      - by eapply blk_upd.
      - rewrite lookup_app_r by (rewrite !fmap_length, take_length; lia).
        rewrite !fmap_length, take_length. replace (k - Nat.min k (length xs)) with 0 by lia.
        apply lookup_live_app. by rewrite lookup_drop, Nat.add_0_r. }
    cbv beta. rewrite upd_upd. f_equal.
    rewrite (drop_S xs _ _ Hx). erewrite take_S_r by done. rewrite !fmap_app, fmap_cons. simpl.
    apply insert_boundary. rewrite !fmap_length, take_length. lia.
  - intros m' ->. simpl. rewrite firstn_all, drop_ge by lia. done.
Qed.

Lemma forall_replicate_raw k : Forall (vacant E) (replicate k Raw).
Proof. apply Forall_replicate. by left. Qed.

Lemma dead_list_vacant (cs : list (cell A)) : Forall (vacant E) (dead E <$> cs).
Proof. apply Forall_fmap, Forall_true. intros c. apply dead_vacant. Qed.

Lemma dead_list_free (xs : list A) :
  triv E = true \/ Forall (fun c => c = Raw) (dead E <$> (Live <$> xs)).
Proof.
  unfold dead. destruct (triv E); [by left|right].
  apply Forall_fmap, Forall_true. done.
Qed.
End lemmas.
