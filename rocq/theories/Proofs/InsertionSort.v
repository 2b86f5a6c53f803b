(** insertion_sort_by_ (sort.hpp:93-105) sorts a segment stably. *)
From Verif Require Import Base.Cpp Model.Sort Spec.SortSpec Proofs.SortLemmas.

Set Default Proof Using "Type".

Section proofs.
Context {A : Type} (mv : A -> A) (comp : A -> A -> bool).
Implicit Types l : list A.

(** [l'] is [l] after insertion of [key] behind the last element that is not greater. *)
Definition inserted (key : A) (l l' : list A) : Prop :=
  exists s1 s2, l = s1 ++ s2 /\ l' = s1 ++ key :: s2 /\
    Forall (fun y => comp key y = true) s2 /\
    (s1 = [] \/ exists s0 z, s1 = s0 ++ [z] /\ comp key z = false).

Lemma insert_shift_wp key s' : forall pre hole s2 post,
  Forall (fun y => comp key y = true) s2 ->
  wp (insert_shift mv comp (pre ++ s' ++ hole :: s2 ++ post) (length pre) key
        (length pre + length s'))
     (fun '(a, j) => exists s1 s3 hole',
        s' ++ s2 = s1 ++ s3 /\ Forall (fun y => comp key y = true) s3 /\
        (s1 = [] \/ exists s0 z, s1 = s0 ++ [z] /\ comp key z = false) /\
        a = pre ++ s1 ++ hole' :: s3 ++ post /\ j = length pre + length s1).
Proof.
  induction s' as [|z s0 IH] using rev_ind; intros pre hole s2 post Hs2.
  - simpl. rewrite Nat.add_0_r.
    destruct pre as [|p pre]; [|cbn [length insert_shift]; rewrite decide_False by lia].
    + simpl. apply wp_ok. exists [], s2, hole. by auto.
    + apply wp_ok. exists [], s2, hole. split_and!; simpl; auto.
  - rewrite app_length. cbn [length].
    replace (length pre + (length s0 + 1)) with (S (length pre + length s0)) by lia.
    cbn [insert_shift]. rewrite decide_True by lia.
    apply wp_bind. eapply (wp_get _ _ z).
    { rewrite lookup_app_r by lia. rewrite <- (assoc_L (++)).
      rewrite lookup_app_r by lia. by replace (length pre + length s0 - length pre - length s0) with 0 by lia. }
    destruct (comp key z) eqn:Hc.
    + apply wp_bind, wp_put; [rewrite !app_length; simpl; lia|].
      apply wp_bind, wp_put; [rewrite insert_length, !app_length; simpl; lia|].
      assert (Heq : <[S (length pre + length s0):=z]>
                (<[length pre + length s0:=mv z]> (pre ++ (s0 ++ [z]) ++ hole :: s2 ++ post))
              = pre ++ s0 ++ mv z :: (z :: s2) ++ post).
      { rewrite <- (assoc_L (++) s0).
        rewrite insert_app_r_alt by lia.
        replace (length pre + length s0 - length pre) with (length s0) by lia.
        rewrite (insert_app_r_alt s0) by lia. rewrite Nat.sub_diag. simpl.
        rewrite (insert_app_r_alt pre) by lia.
        replace (S (length pre + length s0) - length pre) with (S (length s0)) by lia.
        rewrite (insert_app_r_alt s0) by lia.
        replace (S (length s0) - length s0) with 1 by lia. done. }
      rewrite Heq. eapply wp_mono; [apply IH; by constructor|].
      intros [a j] (s1 & s3 & h & E & HF & Hlast & Ea & Ej).
      exists s1, s3, h. split; [by rewrite <- (assoc_L (++))|]. done.
    + apply wp_ok. exists (s0 ++ [z]), s2, hole. split; [done|]. split; [done|].
      split; [right; eauto|]. split; [done|]. rewrite app_length. simpl. lia.
Qed.

(** One iteration of the outer loop. *)
Lemma insert_step_wp key l pre post :
  wp (let* k := get (pre ++ l ++ key :: post) (length pre + length l) in
      let* a1 := put (pre ++ l ++ key :: post) (length pre + length l) (mv k) in
      let* (a2, j) := insert_shift mv comp a1 (length pre) k (length pre + length l) in
      put a2 j k)
     (fun a => exists l', inserted key l l' /\ a = pre ++ l' ++ post).
Proof.
  apply wp_bind. eapply (wp_get _ _ key).
  { rewrite lookup_app_r by lia. rewrite lookup_app_r by lia.
    by replace (length pre + length l - length pre - length l) with 0 by lia. }
  apply wp_bind, wp_put; [rewrite !app_length; simpl; lia|].
  replace (<[length pre + length l:=mv key]> (pre ++ l ++ key :: post))
    with (pre ++ l ++ mv key :: [] ++ post).
  2:{ rewrite insert_app_r_alt by lia.
      replace (length pre + length l - length pre) with (length l) by lia.
      rewrite insert_app_r_alt by lia. by rewrite Nat.sub_diag. }
  apply wp_bind. eapply wp_mono; [apply insert_shift_wp; constructor|].
  intros [a j] (s1 & s3 & h & E & HF & Hlast & -> & ->).
  rewrite app_nil_r in E. subst l.
  apply wp_put; [rewrite !app_length; simpl; lia|].
  exists (s1 ++ key :: s3). split.
  { exists s1, s3. auto. }
  rewrite insert_app_r_alt by lia.
  replace (length pre + length s1 - length pre) with (length s1) by lia.
  rewrite insert_app_r_alt by lia. rewrite Nat.sub_diag. simpl.
  by rewrite <- (assoc_L (++)).
Qed.

(** What insertion preserves. *)
Lemma inserted_perm key l l' : inserted key l l' -> Permutation (l ++ [key]) l'.
Proof.
  intros (s1 & s2 & -> & -> & _ & _).
  rewrite <- (assoc_L (++)). apply Permutation_app_head. symmetry. apply Permutation_cons_append.
Qed.

Lemma inserted_sorted key l l' : strict_weak_order comp ->
  inserted key l l' -> sorted_by comp l -> sorted_by comp l'.
Proof.
  intros Hswo (s1 & s2 & -> & -> & HF & Hlast) Hs.
  rewrite sorted_by_app in Hs. destruct Hs as (Hs1 & Hs2 & H12).
  rewrite Forall_forall in HF.
  rewrite sorted_by_app, sorted_by_cons. split_and!; [done| |done|].
  - rewrite Forall_forall. intros y Hy. apply (swo_asym comp Hswo), HF, Hy.
  - intros x y Hx Hy. apply elem_of_cons in Hy as [->|Hy]; [|by apply H12].
    destruct Hlast as [->|(s0 & z & -> & Hz)]; [by apply elem_of_nil in Hx|].
    apply elem_of_app in Hx as [Hx|Hx].
    + rewrite sorted_by_app in Hs1. destruct Hs1 as (_ & _ & Hs1).
      apply (swo_ge_trans comp Hswo x z key); [|done]. apply Hs1; [done|by apply elem_of_list_singleton].
    + apply elem_of_list_singleton in Hx as ->. done.
Qed.

Lemma filter_nil (P : A -> bool) l : (forall x, x ∈ l -> P x = false) -> List.filter P l = [].
Proof.
  clear mv comp.
  induction l as [|a l IH]; simpl; intros H; [done|].
  rewrite H by set_solver. apply IH. set_solver.
Qed.

Lemma inserted_stable key l0 l l' : strict_weak_order comp ->
  inserted key l l' -> stable_wrt comp l0 l -> stable_wrt comp (l0 ++ [key]) l'.
Proof.
  intros Hswo (s1 & s2 & -> & -> & HF & _) Hst x.
  rewrite Forall_forall in HF. specialize (Hst x).
  rewrite !List.filter_app. rewrite List.filter_app in Hst. rewrite <- Hst.
  simpl. destruct (equivb comp x key) eqn:He.
  - assert (Hn : List.filter (equivb comp x) s2 = []).
    { apply filter_nil. intros y Hy. specialize (HF y Hy).
      unfold equivb in *. apply andb_true_iff in He as [H1 H2].
      apply negb_true_iff in H1, H2.
      destruct (comp x y) eqn:Hxy; [done|]. destruct (comp y x) eqn:Hyx; [done|].
      destruct (swo_incomp_trans _ Hswo key x y) as [Hbad _]; try done. congruence. }
    rewrite Hn. by rewrite app_nil_r.
  - by rewrite app_nil_r.
Qed.

(** The result on a segment: permutation always, stably sorted for orders. *)
Definition sorted_result (l l' : list A) : Prop :=
  Permutation l l' /\ (strict_weak_order comp -> sorted_by comp l' /\ stable_wrt comp l l').

Lemma sorted_result_single x : sorted_result [x] [x].
Proof.
  split; [done|]. intros _. split; [|by intros ?].
  rewrite sorted_by_cons. split; [done|apply sorted_by_nil].
Qed.

Lemma sorted_result_step key l0 l l' :
  sorted_result l0 l -> inserted key l l' -> sorted_result (l0 ++ [key]) l'.
Proof.
  intros [Hp Hs] Hins. split.
  - rewrite Hp. by apply inserted_perm.
  - intros Hswo. destruct (Hs Hswo). split; [by eapply inserted_sorted|by eapply inserted_stable].
Qed.

Lemma insertion_sort_seg_wp pre seg post lft rgt :
  length pre = lft -> lft <= rgt -> length seg = S rgt - lft ->
  wp (insertion_sort_by_ mv comp (pre ++ seg ++ post) lft rgt)
     (fun a => exists seg', sorted_result seg seg' /\ a = pre ++ seg' ++ post).
Proof.
  intros <- Hle Hlen. unfold insertion_sort_by_.
  apply (wp_for_up (fun i a => exists d, sorted_result (take (i - length pre) seg) d /\
                    a = pre ++ d ++ drop (i - length pre) seg ++ post)).
  - replace (length pre + 1 - length pre) with 1 by lia.
    destruct seg as [|x seg]; simpl in *; [lia|].
    exists [x]. rewrite take_0, drop_0. split; [apply sorted_result_single|done].
  - intros k a Hk1 Hk2 (d & Hd & ->).
    set (m := k - length pre) in *.
    assert (Hm : m < length seg) by lia.
    destruct (lookup_lt_is_Some_2 seg m Hm) as [key Hkey].
    rewrite (drop_S seg key m Hkey).
    assert (Hdl : length d = m).
    { destruct Hd as [Hp _]. rewrite <- Hp, take_length. lia. }
    replace k with (length pre + length d) by lia.
    simpl. eapply wp_mono; [apply insert_step_wp|].
    intros a (l' & Hins & ->). exists l'.
    replace (S (length pre + length d) - length pre) with (S m) by lia.
    split; [|done]. erewrite take_S_r by done. by eapply sorted_result_step.
  - intros a (d & Hd & ->).
    rewrite take_ge, drop_ge in * by lia. simpl in *. eauto.
Qed.

Lemma insertion_sort_by_wp l :
  wp (insertion_sort_by mv comp l) (sorted_result l).
Proof.
  unfold insertion_sort_by. case_decide as Hl.
  - pose proof (insertion_sort_seg_wp [] l [] 0 (length l - 1)) as H.
    simpl in H. rewrite app_nil_r in H. eapply wp_mono; [apply H; lia|].
    intros a (s & Hs & ->). by rewrite app_nil_r.
  - apply wp_ok. destruct l; [|done]. split; [done|]. intros _. split; [apply sorted_by_nil|].
    by intros x.
Qed.
End proofs.
