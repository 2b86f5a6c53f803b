(** merge_sort_by (sort.hpp:13-51). *)
From Verif Require Import Base.Cpp Model.Sort Spec.SortSpec Proofs.SortLemmas.

Set Default Proof Using "Type".

Section proofs.
Context {A : Type} (comp : A -> A -> bool).
Implicit Types l : list A.

(** Functional merge: the left head is taken only if it is strictly less. *)
Fixpoint mrg (l1 : list A) : list A -> list A :=
  fix go (l2 : list A) : list A :=
    match l1, l2 with
    | [], _ => l2
    | _, [] => l1
    | x :: t1, y :: t2 => if comp x y then x :: mrg t1 l2 else y :: go t2
    end.

Lemma mrg_nil_l l : mrg [] l = l. Proof. by destruct l. Qed.
Lemma mrg_nil_r l : mrg l [] = l. Proof. by destruct l. Qed.
Lemma mrg_cons x t1 y t2 :
  mrg (x :: t1) (y :: t2) = if comp x y then x :: mrg t1 (y :: t2) else y :: mrg (x :: t1) t2.
Proof. done. Qed.

Lemma mrg_perm l1 : forall l2, Permutation (l1 ++ l2) (mrg l1 l2).
Proof.
  induction l1 as [|x t1 IH1]; intros l2; [by rewrite mrg_nil_l|].
  induction l2 as [|y t2 IH2]; [by rewrite mrg_nil_r, app_nil_r|].
  rewrite mrg_cons. destruct (comp x y).
  - simpl. constructor. apply IH1.
  - rewrite <- IH2. rewrite <- Permutation_middle. done.
Qed.

Lemma mrg_sorted l1 : strict_weak_order comp -> forall l2,
  sorted_by comp l1 -> sorted_by comp l2 -> sorted_by comp (mrg l1 l2).
Proof.
  intros Hswo. induction l1 as [|x t1 IH1]; intros l2 H1 H2; [by rewrite mrg_nil_l|].
  induction l2 as [|y t2 IH2]; [by rewrite mrg_nil_r|].
  pose proof H1 as H1'. pose proof H2 as H2'.
  rewrite sorted_by_cons in H1', H2'. destruct H1' as [F1 S1], H2' as [F2 S2].
  rewrite mrg_cons. destruct (comp x y) eqn:Hc; apply sorted_by_cons; split.
  - rewrite <- mrg_perm. apply Forall_app; split; [done|]. constructor.
    { by apply swo_asym. }
    eapply Forall_impl; [exact F2|]. intros z Hz. simpl in Hz.
    apply (swo_ge_trans comp Hswo x y z); [|done]. by apply swo_asym.
  - by apply IH1.
  - rewrite <- mrg_perm. simpl. constructor; [done|]. apply Forall_app; split; [|done].
    eapply Forall_impl; [exact F1|]. intros z Hz. simpl in Hz.
    apply (swo_ge_trans comp Hswo y x z); done.
  - by apply IH2.
Qed.

Lemma copy_range_wp l from n :
  from + n <= length l ->
  wp (copy_range l from n) (fun a => a = take n (drop from l)).
Proof.
  intros H. unfold copy_range.
  apply (wp_for_up (fun i a => a = take i (drop from l))).
  - by rewrite take_0.
  - intros k s _ Hk ->. apply wp_bind, wp_get_lt; [lia|].
    intros x Hx. apply wp_ok. symmetry. apply take_S_r. by rewrite lookup_drop.
  - intros s ->. done.
Qed.

(** Writing at the boundary between the output and the rest. *)
Lemma put_boundary (out rest : list A) x (Q : list A -> Prop) k :
  k = length out -> 0 < length rest ->
  Q ((out ++ [x]) ++ drop 1 rest) -> wp (put (out ++ rest) k x) Q.
Proof.
  intros -> Hr HQ. apply wp_put; [rewrite app_length; lia|].
  rewrite insert_app_r_alt by lia. rewrite Nat.sub_diag.
  destruct rest as [|r rest]; simpl in *; [lia|]. by rewrite <- (assoc_L (++)) in HQ.
Qed.

Lemma merge_both_wp (L R pre : list A) arr0 fuel :
  length L + length R < fuel ->
  length pre + length L + length R <= length arr0 ->
  take (length pre) arr0 = pre ->
  wp (loop fuel (merge_both comp L R (length L) (length R)) (arr0, 0, 0, length pre))
     (fun '(a, i, j, k) => exists out,
        i <= length L /\ j <= length R /\ (i = length L \/ j = length R) /\
        k = length pre + i + j /\
        a = (pre ++ out) ++ drop k arr0 /\ length out = i + j /\
        out ++ mrg (drop i L) (drop j R) = mrg L R).
Proof.
  intros Hf Hlen Hpre.
  apply (wp_loop (fun '(a, i, j, k) => exists out,
        i <= length L /\ j <= length R /\ k = length pre + i + j /\
        a = (pre ++ out) ++ drop k arr0 /\ length out = i + j /\
        out ++ mrg (drop i L) (drop j R) = mrg L R)
      (fun '(a, i, j, k) => (length L - i) + (length R - j))).
  - lia.
  - exists []. rewrite !drop_0. split_and!; try lia; try done.
    rewrite app_nil_r. rewrite <- Hpre at 1. by rewrite take_drop.
  - intros [[[a i] j] k] (out & Hi & Hj & Hk & Ha & Hout & Hm).
    unfold merge_both. case_decide as Hd.
    + destruct Hd as [Hi' Hj'].
      destruct (lookup_lt_is_Some_2 L i Hi') as [x Hx].
      destruct (lookup_lt_is_Some_2 R j Hj') as [y Hy].
      apply wp_bind. eapply wp_get; [done|].
      apply wp_bind. eapply wp_get; [done|].
      rewrite (drop_S L x i Hx), (drop_S R y j Hy), mrg_cons in Hm.
      destruct (comp x y); apply wp_bind; rewrite Ha.
      * apply put_boundary; [rewrite app_length; lia|rewrite drop_length; lia|].
        apply wp_ok. split; [|lia]. exists (out ++ [x]). split_and!; try lia.
        -- rewrite drop_drop, (assoc_L (++) pre). f_equal. f_equal. lia.
        -- rewrite app_length. simpl. lia.
        -- rewrite <- (assoc_L (++)). by rewrite (drop_S R y j Hy).
      * apply put_boundary; [rewrite app_length; lia|rewrite drop_length; lia|].
        apply wp_ok. split; [|lia]. exists (out ++ [y]). split_and!; try lia.
        -- rewrite drop_drop, (assoc_L (++) pre). f_equal. f_equal. lia.
        -- rewrite app_length. simpl. lia.
        -- rewrite <- (assoc_L (++)). by rewrite (drop_S L x i Hx).
    + apply wp_ok. exists out. split_and!; try done; lia.
Qed.

Lemma merge_rest_wp (side out : list A) arr0 fuel i0 :
  length side - i0 < fuel -> i0 <= length side ->
  length out + (length side - i0) <= length arr0 ->
  take (length out) arr0 = out ->
  wp (loop fuel (merge_rest side (length side)) (arr0, i0, length out))
     (fun '(a, i, k) => i = length side /\ k = length out + (length side - i0) /\
        a = (out ++ drop i0 side) ++ drop k arr0).
Proof.
  intros Hf Hi0 Hlen Hpre.
  apply (wp_loop (fun '(a, i, k) => i0 <= i /\ i <= length side /\ k = length out + (i - i0) /\
        a = (out ++ take (i - i0) (drop i0 side)) ++ drop k arr0)
      (fun '(a, i, k) => length side - i)).
  - lia.
  - split_and!; try lia. rewrite Nat.sub_diag, take_0, app_nil_r.
    rewrite <- Hpre at 1. by rewrite take_drop.
  - intros [[a i] k] (Hi1 & Hi2 & Hk & Ha). unfold merge_rest. case_decide as Hd.
    + destruct (lookup_lt_is_Some_2 side i Hd) as [x Hx].
      apply wp_bind. eapply wp_get; [done|]. apply wp_bind. rewrite Ha.
      apply put_boundary.
      { rewrite app_length, take_length, drop_length. lia. }
      { rewrite drop_length. lia. }
      apply wp_ok. split; [|lia]. split_and!; try lia.
      replace (S i - i0) with (S (i - i0)) by lia.
      rewrite (take_S_r _ (i - i0) x).
      2:{ rewrite lookup_drop. by replace (i0 + (i - i0)) with i by lia. }
      rewrite drop_drop, (assoc_L (++) out). f_equal. f_equal. lia.
    + apply wp_ok. assert (i = length side) as -> by lia. split_and!; try done.
      rewrite Ha. rewrite take_ge by (rewrite drop_length; lia). done.
Qed.

Lemma merge_wp pre L R post lft mid rgt :
  length pre = lft -> lft <= mid -> mid <= rgt ->
  length L = mid - lft + 1 -> length R = rgt - mid ->
  wp (merge comp (pre ++ L ++ R ++ post) lft mid rgt) (fun a => a = pre ++ mrg L R ++ post).
Proof.
  intros <- Hm Hr HL HR. unfold merge. rewrite <- HL, <- HR.
  apply wp_bind. eapply wp_mono; [apply copy_range_wp; rewrite !app_length; lia|].
  intros ? ->. rewrite drop_app_alt, take_app_alt by lia.
  apply wp_bind. eapply wp_mono; [apply copy_range_wp; rewrite !app_length; lia|].
  assert (HRR : take (length R) (drop (mid + 1) (pre ++ L ++ R ++ post)) = R).
  { rewrite (assoc_L (++) pre). rewrite drop_app_alt by (rewrite app_length; lia).
    by rewrite take_app. }
  rewrite HRR. clear HRR. intros ? ->.
  set (arr0 := pre ++ L ++ R ++ post).
  assert (Hlen0 : length arr0 = length pre + length L + length R + length post).
  { unfold arr0. rewrite !app_length. lia. }
  apply wp_bind. eapply wp_mono.
  { apply (merge_both_wp L R pre arr0); [lia|lia|]. unfold arr0. by rewrite take_app. }
  intros [[[a i] j] k] (out & Hi & Hj & Hij & Hk & Ha & Hout & Hmrg).
  apply wp_bind. eapply wp_mono.
  { replace k with (length (pre ++ out)) by (rewrite app_length; lia).
    apply (merge_rest_wp L (pre ++ out) a (S (length L)) i); [lia|lia| |].
    - rewrite Ha. rewrite !app_length, drop_length. lia.
    - rewrite Ha. by rewrite take_app. }
  intros [[a2 i2] k2] (Hi2 & Hk2 & Ha2). rewrite app_length in Hk2.
  apply wp_bind. eapply wp_mono.
  { replace k2 with (length ((pre ++ out) ++ drop i L)).
    2:{ rewrite !app_length, drop_length. lia. }
    apply (merge_rest_wp R ((pre ++ out) ++ drop i L) a2 (S (length R)) j); [lia|lia| |].
    - rewrite Ha2, Ha. rewrite !app_length, !drop_length, !app_length, !drop_length. lia.
    - rewrite Ha2. by rewrite take_app. }
  intros [[a3 i3] k3] (Hi3 & Hk3 & Ha3).
  rewrite !app_length, drop_length in Hk3.
  apply wp_ok. rewrite Ha3, Ha2, Ha.
  rewrite drop_app_ge by (rewrite !app_length, drop_length; lia).
  rewrite drop_drop.
  rewrite drop_app_ge by (rewrite !app_length; lia).
  rewrite drop_drop.
  assert (Hfin : drop (k + (k2 + (k3 - length ((pre ++ out) ++ drop i L)) - length (pre ++ out))) arr0 = post).
  { replace (k + _) with (length (pre ++ L ++ R)).
    2:{ rewrite !app_length, drop_length. lia. }
    unfold arr0. rewrite !(assoc_L (++)). rewrite drop_app. done. }
  rewrite Hfin. clear Hfin Ha3 Ha2 Ha. rewrite <- Hmrg.
  destruct Hij as [->| ->].
  - rewrite (drop_ge L) by lia. rewrite mrg_nil_l, app_nil_r. by rewrite !(assoc_L (++)).
  - rewrite (drop_ge R) by lia. rewrite mrg_nil_r, app_nil_r. by rewrite !(assoc_L (++)).
Qed.

Definition merge_result (l l' : list A) : Prop :=
  Permutation l l' /\ (strict_weak_order comp -> sorted_by comp l').

Lemma merge_sort_seg_wp fuel : forall pre seg post lft rgt,
  length pre = lft -> lft <= rgt -> length seg = S rgt - lft -> rgt - lft < fuel ->
  wp (merge_sort_by comp fuel (pre ++ seg ++ post) lft rgt)
     (fun a => exists seg', merge_result seg seg' /\ a = pre ++ seg' ++ post).
Proof.
  induction fuel as [|fuel IH]; intros pre seg post lft rgt Hpre Hle Hlen Hf; [lia|].
  cbn [merge_sort_by]. case_decide as Hd.
  - set (mid := lft + (rgt - lft) / 2).
    assert (Hmid : lft <= mid < rgt).
    { unfold mid. pose proof (Nat.div_lt (rgt - lft) 2). split; [lia|].
      assert ((rgt - lft) / 2 < rgt - lft) by (apply H; lia). lia. }
    rewrite <- (take_drop (S mid - lft) seg). rewrite <- (assoc_L (++)).
    apply wp_bind. eapply wp_mono; [apply IH; [done|lia| |lia]|].
    { rewrite take_length. lia. }
    intros a (L & [HLp HLs] & ->).
    assert (HL : length L = S mid - lft).
    { rewrite <- HLp, take_length. lia. }
    replace (pre ++ L ++ drop (S mid - lft) seg ++ post)
      with ((pre ++ L) ++ drop (S mid - lft) seg ++ post) by (by rewrite <- (assoc_L (++))).
    apply wp_bind. eapply wp_mono; [apply IH; [|lia| |lia]|].
    { rewrite app_length. lia. }
    { rewrite drop_length. lia. }
    intros a (R & [HRp HRs] & ->).
    assert (HR : length R = rgt - mid).
    { rewrite <- HRp, drop_length. lia. }
    rewrite <- (assoc_L (++)).
    eapply wp_mono; [apply merge_wp; lia|].
    intros a ->. exists (mrg L R). split; [|done]. split.
    + rewrite <- mrg_perm. by rewrite <- HLp, <- HRp.
    + intros Hswo. apply mrg_sorted; auto.
  - apply wp_ok. exists seg. split; [|done]. split; [done|]. intros _.
    destruct seg as [|x [|y seg]]; simpl in Hlen; [apply sorted_by_nil| |lia].
    apply sorted_by_cons. split; [done|apply sorted_by_nil].
Qed.
End proofs.
