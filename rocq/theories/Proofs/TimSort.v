(** timsort_by / sort_by (sort.hpp:155-211). *)
From Verif Require Import Base.Cpp Model.Sort Spec.SortSpec Proofs.SortLemmas Proofs.InsertionSort.

Set Default Proof Using "Type".

Section proofs.
Context {A : Type} (mv : A -> A) (comp : A -> A -> bool).
Implicit Types l : list A.

(** ** The shifting loop rotates a segment *)
Lemma shift_right_wp (s : list A) : forall pre v post,
  wp (shift_right (pre ++ s ++ v :: post) (length pre) (length pre + length s))
     (fun a => exists w, a = pre ++ w :: s ++ post).
Proof.
  induction s as [|z s0 IH] using rev_ind; intros pre v post.
  - simpl. rewrite Nat.add_0_r.
    assert (H : shift_right (pre ++ v :: post) (length pre) (length pre) = Ok (pre ++ v :: post)).
    { destruct (length pre); cbn [shift_right]; by rewrite decide_False by lia. }
    rewrite H. apply wp_ok. by exists v.
  - rewrite app_length. simpl.
    replace (length pre + (length s0 + 1)) with (S (length pre + length s0)) by lia.
    cbn [shift_right]. rewrite decide_True by lia.
    apply wp_bind. eapply (wp_get _ _ z).
    { rewrite lookup_app_r by lia. rewrite <- (assoc_L (++)). rewrite lookup_app_r by lia.
      by replace (length pre + length s0 - length pre - length s0) with 0 by lia. }
    apply wp_bind, wp_put; [rewrite !app_length; simpl; lia|].
    assert (Heq : <[S (length pre + length s0):=z]> (pre ++ (s0 ++ [z]) ++ v :: post)
                  = pre ++ s0 ++ z :: z :: post).
    { rewrite <- (assoc_L (++) s0). rewrite (insert_app_r_alt pre) by lia.
      replace (S (length pre + length s0) - length pre) with (S (length s0)) by lia.
      rewrite (insert_app_r_alt s0) by lia.
      by replace (S (length s0) - length s0) with 1 by lia. }
    rewrite Heq. eapply wp_mono; [apply IH|].
    intros a (w & ->). exists w. by rewrite <- (assoc_L (++)).
Qed.

Lemma rotate_wp (a : list A) start start2 v (Q : list A -> Prop) lo hi :
  lo <= start -> start <= start2 -> start2 < hi -> a !! start2 = Some v ->
  (forall a', rperm lo hi a a' -> Q a') ->
  wp (let* a1 := shift_right a start start2 in put a1 start v) Q.
Proof.
  intros Hlo Hs Hhi Hv HQ.
  assert (Hl : start2 < length a) by (by eapply lookup_lt_Some).
  set (pre := take start a). set (s := take (start2 - start) (drop start a)).
  set (post := drop (S start2) a).
  assert (Ha : a = pre ++ s ++ v :: post).
  { unfold pre, s, post. rewrite <- (drop_S a v start2 Hv). apply split_range; lia. }
  assert (Hpre : length pre = start) by (unfold pre; rewrite take_length; lia).
  assert (Hslen : length s = start2 - start).
  { unfold s. rewrite take_length, drop_length. lia. }
  clearbody pre s post. subst a start. clear Hv Hl.
  apply wp_bind. replace start2 with (length pre + length s) by lia.
  eapply wp_mono; [apply shift_right_wp|].
  intros a (w & ->). apply wp_put; [rewrite !app_length; simpl; lia|].
  rewrite insert_app_r_alt by lia. rewrite Nat.sub_diag. simpl.
  apply HQ. split.
  - apply Permutation_app_head. rewrite Permutation_middle. done.
  - intros i Hi. destruct Hi as [Hi|Hi].
    + by rewrite !lookup_app_l by lia.
    + rewrite !(assoc_L (++)). rewrite (lookup_app_r (pre ++ s)), app_length by (rewrite app_length; lia).
      replace (pre ++ v :: s ++ post) with ((pre ++ v :: s) ++ post)
        by (rewrite <- (assoc_L (++)); done).
      rewrite lookup_app_r by (rewrite app_length; simpl; lia).
      rewrite app_length. simpl.
      replace (i - (length pre + length s)) with (S (i - (length pre + S (length s)))) by lia.
      done.
Qed.

(** ** timsort_merge permutes its range, whatever the comparator *)
Lemma timsort_merge_wp a start mid endi :
  start <= mid -> mid < endi -> endi < length a ->
  wp (timsort_merge comp a start mid endi) (rperm start (S endi) a).
Proof.
  intros Hs Hm He. unfold timsort_merge.
  apply wp_bind, wp_get_lt; [lia|]. intros x Hx.
  apply wp_bind, wp_get_lt; [lia|]. intros y Hy.
  destruct (negb (comp x y)).
  { apply wp_ok, rperm_refl. }
  apply (wp_loop (fun '(a', st, md, st2) => rperm start (S endi) a a' /\
            start <= st /\ st <= S md /\ st2 = S md)
          (fun '(a', st, md, st2) => S endi - st)).
  - lia.
  - split_and!; try lia. apply rperm_refl.
  - intros [[[a' st] md] st2] (Hr & H1 & H2 & ->).
    assert (Hla := rperm_length _ _ _ _ Hr).
    unfold timsort_merge_step. case_decide as Hd.
    + destruct Hd as [Hd1 Hd2].
      destruct (lookup_lt_is_Some_2 a' (S md)) as [v Hv]; [lia|].
      destruct (lookup_lt_is_Some_2 a' st) as [u Hu]; [lia|].
      apply wp_bind. eapply wp_get; [done|]. apply wp_bind. eapply wp_get; [done|].
      destruct (negb (comp v u)).
      * apply wp_ok. split; [|lia]. split_and!; try lia. done.
      * assert (Hrot : wp (let* a1 := shift_right a' st (S md) in put a1 st v)
                   (fun a2 => rperm start (S endi) a a2)).
        { eapply (rotate_wp a' st (S md) v _ start (S endi)); try lia; [done|].
          intros a2 Ha2. by eapply rperm_trans. }
        destruct Hrot as (a2 & Ha2 & Hr2).
        destruct (shift_right a' st (S md)) as [a1| | |] eqn:E1; simpl in Ha2; try done.
        cbn [bind]. rewrite Ha2. cbn [bind]. apply wp_ok.
        split; [|lia]. split_and!; try lia. done.
    + by apply wp_ok.
Qed.

(** If nothing in the left half is greater than the first element of the right half,
    timsort_merge changes nothing. *)
Lemma timsort_merge_id a start mid endi y :
  start <= mid -> mid < endi -> endi < length a ->
  a !! S mid = Some y ->
  (forall t x, start <= t <= mid -> a !! t = Some x -> comp y x = false) ->
  timsort_merge comp a start mid endi = Ok a.
Proof.
  intros Hs Hm He Hy Hall.
  assert (H : wp (timsort_merge comp a start mid endi) (eq a)); [|by destruct H as (? & -> & <-)].
  unfold timsort_merge.
  apply wp_bind, wp_get_lt; [lia|]. intros x Hx.
  apply wp_bind, wp_get_lt; [lia|]. intros y' Hy'.
  destruct (negb (comp x y')).
  { by apply wp_ok. }
  apply (wp_loop (fun '(a', st, md, st2) => a' = a /\ start <= st /\ md = mid /\ st2 = S mid)
          (fun '(a', st, md, st2) => S mid - st)).
  - lia.
  - split_and!; try lia; done.
  - intros [[[a' st] md] st2] (-> & H1 & -> & ->).
    unfold timsort_merge_step. case_decide as Hd.
    + destruct Hd as [Hd1 Hd2].
      destruct (lookup_lt_is_Some_2 a st) as [u Hu]; [lia|].
      apply wp_bind. eapply wp_get; [done|]. apply wp_bind. eapply wp_get; [done|].
      rewrite (Hall st u) by (try done; lia). simpl.
      apply wp_ok. split; [|lia]. split_and!; try lia; done.
    + by apply wp_ok.
Qed.

(** ** The merging phase *)
Lemma merge_phase_wp (P : list A -> Prop) n a :
  (forall a lft mid rgt, P a -> length a = n -> lft <= mid -> mid < rgt -> rgt < n -> 31 <= mid ->
     (n <= 64 -> lft = 0 /\ mid = 31) ->
     wp (timsort_merge comp a lft mid rgt) (fun a' => P a' /\ length a' = n)) ->
  P a -> length a = n ->
  wp (loop (S n) (merge_loop comp n) (RUN, a)) P.
Proof.
  intros Hstep HP Hn.
  apply (wp_loop (fun '(sz, a) => (sz = 32 \/ 64 <= sz) /\ P a /\ length a = n)
                 (fun '(sz, a) => n - sz)).
  - unfold RUN. lia.
  - unfold RUN. auto.
  - clear a HP Hn. intros [sz a] (Hsz & HP & Hn). unfold merge_loop.
    case_decide as Hlt; [|by apply wp_ok].
    apply wp_bind.
    apply (wp_loop (fun '(lft, a) => (lft = 0 \/ 64 <= lft) /\ P a /\ length a = n)
                   (fun '(lft, a) => n - lft)).
    + lia.
    + auto.
    + clear a HP Hn. intros [lft a] (Hlft & HP & Hn). unfold merge_pass.
      case_decide as Hlt2.
      * apply wp_bind. case_decide as Hmr.
        -- eapply wp_mono; [apply Hstep; try done; try lia|].
           intros a' [HP' Hn']. apply wp_ok. split; [|lia]. split; [lia|]. done.
        -- apply wp_ok. apply wp_ok. split; [|lia]. split; [lia|]. done.
      * apply wp_ok. apply wp_ok. split; [|lia]. split; [lia|]. done.
Qed.

(** ** The run phase sorts every 32-element chunk *)
Lemma chunks_aux_fuel n : 0 < n -> forall f1 f2 l, length l <= f1 -> length l <= f2 ->
  chunks_aux f1 n l = chunks_aux f2 n l.
Proof.
  intros Hn. induction f1 as [|f1 IH]; intros f2 l H1 H2.
  - destruct l; simpl in H1; [|lia]. by destruct f2.
  - destruct f2 as [|f2]; destruct l as [|x l]; simpl in *; try lia; try done.
    f_equal. apply IH; rewrite drop_length; simpl; lia.
Qed.

Lemma chunks_cons n l : 0 < n -> l <> [] -> chunks n l = take n l :: chunks n (drop n l).
Proof.
  intros Hn Hl. unfold chunks. destruct l as [|x l]; [done|]. cbn [length chunks_aux].
  f_equal. apply chunks_aux_fuel; [done|rewrite drop_length; simpl; lia|done].
Qed.

Lemma chunks_nil n : chunks n ([] : list A) = [].
Proof. done. Qed.

Lemma concat_chunks n : 0 < n -> forall l, concat (chunks n l) = l.
Proof.
  intros Hn l. induction l as [l IH] using (induction_ltof1 _ length). unfold ltof in IH.
  destruct (decide (l = [])) as [->|Hl]; [done|].
  rewrite chunks_cons by done. simpl. rewrite IH; [by rewrite take_drop|].
  rewrite drop_length. destruct l; [done|]. simpl. lia.
Qed.

Lemma chunks_app n l1 l2 : 0 < n -> length l1 = n -> chunks n (l1 ++ l2) = l1 :: chunks n l2.
Proof.
  intros Hn Hl. rewrite chunks_cons; [|done|].
  - by rewrite take_app_alt, drop_app_alt by done.
  - destruct l1; simpl in *; [lia|done].
Qed.

Lemma chunks_short n l : 0 < n -> length l <= n -> l <> [] -> chunks n l = [l].
Proof.
  intros Hn Hl Hne. rewrite chunks_cons by done.
  by rewrite take_ge, drop_ge by lia.
Qed.

Definition chunk_sorted (l l' : list A) : Prop :=
  length l = length l' /\ Forall2 (sorted_result comp) (chunks 32 l) (chunks 32 l').

Lemma run_phase_wp fuel : forall pre rest n,
  n = length pre + length rest -> length rest < fuel ->
  wp (loop fuel (run_loop mv comp n) (length pre, pre ++ rest))
     (fun a => exists rest', a = pre ++ rest' /\ chunk_sorted rest rest').
Proof.
  induction fuel as [|fuel IH]; intros pre rest n Hn Hf; [lia|].
  cbn [loop]. unfold run_loop at 1. case_decide as Hlt.
  2:{ apply wp_bind, wp_ok. apply wp_ok. exists rest. split; [done|].
      assert (rest = []) as -> by (apply nil_length_inv; lia). split; constructor. }
  assert (Hne : rest <> []) by (destruct rest; simpl in *; [lia|done]).
  destruct (decide (32 < length rest)) as [Hbig|Hsmall].
  - apply wp_bind, wp_bind. rewrite <- (take_drop 32 rest) at 1.
    eapply wp_mono.
    { apply (insertion_sort_seg_wp mv comp pre (take 32 rest) (drop 32 rest)); [done|lia|].
      rewrite take_length. lia. }
    intros a (seg' & Hs & ->).
    assert (Hsl : length seg' = 32).
    { destruct Hs as [Hp _]. rewrite <- Hp, take_length. lia. }
    apply wp_ok. cbn [bind]. unfold RUN.
    replace (length pre + 32) with (length (pre ++ seg')) by (rewrite app_length; lia).
    rewrite (assoc_L (++)). eapply wp_mono.
    { apply IH; rewrite ?app_length, drop_length; lia. }
    intros a (rest' & -> & [Hl' Hc]). exists (seg' ++ rest'). split; [by rewrite (assoc_L (++))|].
    rewrite drop_length in Hl'. split; [rewrite app_length; lia|].
    rewrite (chunks_cons 32 rest) by (done || lia).
    rewrite chunks_app by (done || lia). by constructor.
  - apply wp_bind, wp_bind. rewrite <- (app_nil_r rest) at 1.
    eapply wp_mono.
    { apply (insertion_sort_seg_wp mv comp pre rest []); [done|lia|]. lia. }
    intros a (seg' & Hs & ->).
    assert (Hsl : length seg' = length rest) by (destruct Hs as [Hp _]; by rewrite Hp).
    apply wp_ok. cbn [bind]. unfold RUN.
    destruct fuel as [|fuel]; [destruct rest; simpl in *; [done|lia]|].
    cbn [loop]. unfold run_loop at 1. rewrite decide_False by lia.
    apply wp_bind, wp_ok, wp_ok. rewrite app_nil_r. exists seg'. split; [done|].
    split; [done|].
    assert (seg' <> []) by (destruct seg', rest; simpl in *; done || lia).
    rewrite !chunks_short by (done || lia). constructor; [done|constructor].
Qed.

Lemma chunk_sorted_perm l l' : chunk_sorted l l' -> Permutation l l'.
Proof.
  intros [_ H]. rewrite <- (concat_chunks 32 ltac:(lia) l), <- (concat_chunks 32 ltac:(lia) l').
  induction H as [|c c' cs cs' [Hp _] _ IH]; simpl; [done|]. by rewrite Hp, IH.
Qed.

(** ** sort_by, any comparator *)
Lemma timsort_perm_wp l : wp (timsort_by mv comp l) (fun a => Permutation l a).
Proof.
  unfold timsort_by. apply wp_bind.
  eapply wp_mono; [apply (run_phase_wp _ [] l); [done|lia]|].
  intros a (rest' & -> & Hc). simpl.
  apply chunk_sorted_perm in Hc.
  apply (merge_phase_wp (fun a => Permutation l a)); [|done|by rewrite <- Hc].
  intros a lft mid rgt HP Hn H1 H2 H3 _ _.
  eapply wp_mono; [apply timsort_merge_wp; lia|].
  intros a' Hr. split; [|by rewrite (rperm_length _ _ _ _ Hr)].
  etrans; [exact HP|]. by destruct Hr.
Qed.

(** ** sort_by up to 64 elements *)
Lemma chunk_sorted_first l l' : strict_weak_order comp -> chunk_sorted l l' ->
  sorted_on comp 0 32 l'.
Proof.
  intros Hswo [Hl H] i j x y _ Hij Hj Hx Hy.
  assert (Hne : l' <> []) by (destruct l'; done).
  rewrite (chunks_cons 32 l') in H by (done || lia).
  inversion H as [|c c' cs cs' [_ Hs] _ E1 E2]; subst.
  destruct (Hs Hswo) as [Hsort _].
  apply (Hsort i j); [done| |]; by rewrite lookup_take by lia.
Qed.

Lemma timsort_chunks_wp l : strict_weak_order comp -> length l <= 64 ->
  wp (timsort_by mv comp l) (chunk_sorted l).
Proof.
  intros Hswo Hn. unfold timsort_by. apply wp_bind.
  eapply wp_mono; [apply (run_phase_wp _ [] l); [done|lia]|].
  intros a (rest' & -> & Hc). simpl.
  destruct Hc as [Hlen HF].
  apply (merge_phase_wp (fun a => chunk_sorted l a)); [|by split|done].
  intros a lft mid rgt Hca Hla H1 H2 H3 H4 H5. destruct (H5 Hn) as [-> ->].
  destruct (lookup_lt_is_Some_2 a 32) as [y Hy]; [lia|].
  destruct (lookup_lt_is_Some_2 a 31) as [z Hz]; [lia|].
  destruct (comp z y) eqn:Hzy.
  - rewrite (timsort_merge_id a 0 31 rgt y); [by apply wp_ok|lia|lia|lia|done|].
    intros t x Ht Hx. destruct (decide (t = 31)) as [->|].
    { assert (x = z) as -> by congruence. by apply swo_asym. }
    apply (swo_ge_trans comp Hswo x z y).
    + apply (chunk_sorted_first l a Hswo Hca t 31); try done; lia.
    + by apply swo_asym.
  - unfold timsort_merge, get. rewrite Hz. cbn [bind Nat.add]. rewrite Hy. cbn [bind].
    rewrite Hzy. by apply wp_ok.
Qed.

Lemma chunk_sorted_small l l' : strict_weak_order comp -> length l <= 32 ->
  chunk_sorted l l' -> is_stable_sort_of comp l l'.
Proof.
  intros Hswo Hl [Hlen HF].
  destruct (decide (l = [])) as [->|Hne].
  { destruct l'; [|done]. split; [done|]. split; [apply sorted_by_nil|]. by intros x. }
  assert (l' <> []) by (destruct l, l'; simpl in *; done).
  rewrite !chunks_short in HF by (done || lia).
  inversion HF as [|c c' cs cs' [Hp Hs] _ E1 E2]; subst.
  split; [done|]. by apply Hs.
Qed.

(** ** Uniqueness of stable sorting *)
Lemma stable_sort_unique l1 : strict_weak_order comp -> forall l2,
  Permutation l1 l2 -> sorted_by comp l1 -> sorted_by comp l2 -> stable_wrt comp l1 l2 -> l1 = l2.
Proof.
  clear mv.
  intros Hswo. induction l1 as [|x l1 IH]; intros l2 Hp H1 H2 Hst.
  { by apply Permutation_nil in Hp. }
  destruct l2 as [|y l2].
  { symmetry in Hp. by apply Permutation_nil in Hp. }
  assert (Hxy : comp x y = false /\ comp y x = false).
  { assert (Hx : x ∈ y :: l2) by (rewrite <- Hp; set_solver).
    assert (Hy : y ∈ x :: l1) by (rewrite Hp; set_solver).
    rewrite sorted_by_cons in H1, H2. destruct H1 as [F1 _], H2 as [F2 _].
    rewrite Forall_forall in F1, F2.
    apply elem_of_cons in Hx as [->|Hx]; [split; apply (swo_irrefl _ Hswo)|].
    apply elem_of_cons in Hy as [->|Hy]; [split; apply (swo_irrefl _ Hswo)|].
    auto. }
  assert (E : x = y).
  { assert (Exx : equivb comp x x = true) by (unfold equivb; by rewrite (swo_irrefl _ Hswo)).
    assert (Exy : equivb comp x y = true) by (unfold equivb; by destruct Hxy as [-> ->]).
    specialize (Hst x). simpl in Hst. rewrite Exx, Exy in Hst. congruence. }
  subst y. f_equal. apply IH.
  - by apply Permutation_cons_inv in Hp.
  - by apply sorted_by_cons in H1 as [_ ?].
  - by apply sorted_by_cons in H2 as [_ ?].
  - intros z. specialize (Hst z). simpl in Hst. destruct (equivb comp z x); congruence.
Qed.

Lemma sorted_by_take n l : sorted_by comp l -> sorted_by comp (take n l).
Proof. intros H. rewrite <- (take_drop n l) in H. by apply sorted_by_app in H as [? _]. Qed.
Lemma sorted_by_drop n l : sorted_by comp l -> sorted_by comp (drop n l).
Proof. intros H. rewrite <- (take_drop n l) in H. by apply sorted_by_app in H as (_ & ? & _). Qed.

Lemma chunks_sorted_eq l l' : strict_weak_order comp ->
  Forall (sorted_by comp) (chunks 32 l) -> chunk_sorted l l' -> l' = l.
Proof.
  intros Hswo Hs [_ HF].
  rewrite <- (concat_chunks 32 ltac:(lia) l), <- (concat_chunks 32 ltac:(lia) l'). f_equal.
  induction HF as [|c c' cs cs' [Hp Hr] _ IH]; [done|].
  apply Forall_cons in Hs as [Hc Hs]. destruct (Hr Hswo) as [Hs' Hst]. f_equal; [|by apply IH].
  symmetry. by apply stable_sort_unique.
Qed.

Lemma sorted_chunks fuel l : sorted_by comp l -> Forall (sorted_by comp) (chunks_aux fuel 32 l).
Proof.
  revert l. induction fuel as [|f IH]; intros l Hs; [constructor|].
  destruct l as [|x l]; [constructor|]. cbn [chunks_aux]. constructor.
  - by apply sorted_by_take.
  - apply IH. by apply sorted_by_drop.
Qed.

(** ** Sorted input is left alone *)
Lemma timsort_sorted_id l : strict_weak_order comp -> sorted_by comp l ->
  timsort_by mv comp l = Ok l.
Proof.
  intros Hswo Hs.
  assert (H : wp (timsort_by mv comp l) (fun a => a = l)); [|by destruct H as (? & -> & ->)].
  unfold timsort_by. apply wp_bind.
  eapply wp_mono; [apply (run_phase_wp _ [] l); [done|lia]|].
  intros a (rest' & -> & Hc). simpl.
  apply (chunks_sorted_eq l rest' Hswo) in Hc; [|by apply sorted_chunks]. subst rest'.
  apply (merge_phase_wp (fun a => a = l)); [|done|done].
  intros a lft mid rgt -> _ H1 H2 H3 _ _.
  destruct (lookup_lt_is_Some_2 l (S mid)) as [y Hy]; [lia|].
  rewrite (timsort_merge_id l lft mid rgt y); [by apply wp_ok|lia|lia|lia|done|].
  intros t x Ht Hx. apply (Hs t (S mid)); [lia|done|done].
Qed.
End proofs.

(** ** Above 32 elements there is always an input that sort_by does not sort *)
Lemma ltb_swo : strict_weak_order Nat.ltb.
Proof.
  split.
  - intros x. apply Nat.ltb_irrefl.
  - intros x y z. rewrite !Nat.ltb_lt. lia.
  - intros x y z. rewrite !Nat.ltb_ge. lia.
Qed.

Lemma sorted_by_repeat n x : sorted_by Nat.ltb (replicate n x).
Proof.
  intros i j a b _ Ha Hb. apply lookup_replicate in Ha as [-> _]. apply lookup_replicate in Hb as [-> _].
  apply Nat.ltb_irrefl.
Qed.

Lemma timsort_bad mv n : 32 < n ->
  let l := replicate 32 1 ++ replicate (n - 32) 0 in
  length l = n /\ timsort_by mv Nat.ltb l = Ok l /\ ~ sorted_by Nat.ltb l.
Proof.
  intros Hn l.
  assert (Hlen : length l = n).
  { unfold l. rewrite app_length, !replicate_length. lia. }
  assert (Hchunks : Forall (sorted_by Nat.ltb) (chunks 32 l)).
  { unfold l. rewrite chunks_app by (rewrite ?replicate_length; lia).
    constructor; [apply sorted_by_repeat|]. apply sorted_chunks, sorted_by_repeat. }
  assert (Htail : forall i y, 32 <= i -> l !! i = Some y -> y = 0).
  { intros i y Hi Hy. unfold l in Hy.
    rewrite lookup_app_r in Hy by (rewrite replicate_length; lia).
    apply lookup_replicate in Hy as [-> _]. reflexivity. }
  assert (H0 : l !! 0 = Some 1).
  { unfold l. rewrite lookup_app_l by (rewrite replicate_length; lia). reflexivity. }
  assert (H32 : l !! 32 = Some 0).
  { unfold l. rewrite lookup_app_r by (rewrite replicate_length; lia).
    rewrite replicate_length. apply lookup_replicate. split; [reflexivity|lia]. }
  clearbody l.
  split; [exact Hlen|]. split.
  - assert (H : wp (timsort_by mv Nat.ltb l) (fun a => a = l)).
    2:{ destruct H as (a & Ha & ->). exact Ha. }
    unfold timsort_by. apply wp_bind.
    eapply wp_mono; [apply (run_phase_wp mv Nat.ltb _ [] l); [reflexivity|lia]|].
    intros a (rest' & -> & Hc). rewrite app_nil_l.
    apply (chunks_sorted_eq Nat.ltb l rest' ltb_swo Hchunks) in Hc. subst rest'.
    apply (merge_phase_wp Nat.ltb (fun a => a = l)); [|reflexivity|reflexivity].
    intros a lft mid rgt -> _ H1 H2 H3 H4 _.
    unfold timsort_merge.
    apply wp_bind, wp_get_lt; [lia|]. intros x Hx.
    apply wp_bind, wp_get_lt; [lia|]. intros y Hy.
    assert (y = 0) as -> by (apply (Htail (mid + 1)); [lia|exact Hy]).
    assert (Nat.ltb x 0 = false) as -> by (apply Nat.ltb_ge; lia).
    apply wp_ok. split; reflexivity.
  - intros Hs. assert (Nat.ltb 0 1 = false) by (apply (Hs 0 32); [lia|exact H0|exact H32]).
    discriminate.
Qed.
