(** Proofs about digit groups. *)
From Coq Require Import Sorting.Sorted.
From Verif Require Import Base.Cpp Model.Numeric Model.FmtInt Model.Format.
From Verif Require Import Spec.FormatSpec Proofs.FmtIntProofs Proofs.FormatWrite.
Set Default Proof Using "Type".
Local Open Scope Z_scope.
Ltac Zify.zify_post_hook ::= idtac.

(** The groups after the first. *)
Definition next_groups (r : list Z) : list Z := match r with g :: (_ :: _) as r' => r' | _ => r end.

Lemma group_end_pos r k : group_end r k -> 0 < k.
Proof. induction 1; lia. Qed.
Lemma group_end_inv g r k : group_end (g :: r) k <->
  0 < g /\ g <> 127 /\ (k = g \/ group_end (next_groups (g :: r)) (k - g)).
Proof.
  split.
  - intros H. inversion H as [g' gs' ? ?|g' g'' gs' k' ? ? Hk|g' k' ? ? Hk]; subst.
    + auto.
    + split; [done|]. split; [done|]. right. cbn. by replace (g + k' - g) with k' by lia.
    + split; [done|]. split; [done|]. right. cbn. by replace (g + k' - g) with k' by lia.
  - intros (H1 & H2 & [->|H3]); [by constructor|]. replace k with (g + (k - g)) by lia.
    destruct r as [|g' r]; cbn in H3; by constructor.
Qed.
Lemma group_end_nil k : ~ group_end [] k.
Proof. intros H. inversion H. Qed.

(** The ends of groups after [pos] and before [n]. *)
Fixpoint ends (fuel : nat) (r : list Z) (pos n : Z) : list Z :=
  match fuel with
  | O => []
  | S fuel =>
      match r with
      | [] => []
      | g :: _ =>
          if decide (g <= 0 \/ g = 127) then []
          else if decide (pos + g < n) then (pos + g) :: ends fuel (next_groups r) (pos + g) n else []
      end
  end.

Lemma elem_of_ends fuel r pos n k : (Z.to_nat (n - pos) <= fuel)%nat ->
  k ∈ ends fuel r pos n <-> pos < k < n /\ group_end r (k - pos).
Proof.
  revert r pos. induction fuel as [|fuel IH]; intros r pos Hfuel; cbn [ends].
  - split; [by intros ?%elem_of_nil|]. intros [? _]. lia.
  - destruct r as [|g r].
    { split; [by intros ?%elem_of_nil|]. intros [_ H]. by apply group_end_nil in H. }
    rewrite group_end_inv. case_decide as Hg.
    { split; [by intros ?%elem_of_nil|]. intros (_ & ? & ? & _). lia. }
    case_decide as Hn.
    + rewrite elem_of_cons, IH by lia. replace (k - (pos + g)) with (k - pos - g) by lia. split.
      * intros [->|[H1 H2]]; [|split; [lia|]; split; [lia|]; split; [lia|]; auto]. split; [lia|]. split; [lia|]. split; [lia|]. left. lia.
      * intros (H1 & H2 & H3 & [H4|H4]); [left; lia|]. right. split; [|done]. apply group_end_pos in H4. lia.
    + split; [by intros ?%elem_of_nil|]. intros (H1 & H2 & H3 & [H4|H4]); [lia|]. apply group_end_pos in H4. lia.
Qed.
Lemma ends_sorted fuel r pos n : StronglySorted Z.lt (ends fuel r pos n) /\ Forall (fun k => pos < k < n) (ends fuel r pos n).
Proof.
  revert r pos. induction fuel as [|fuel IH]; intros r pos; cbn [ends]; [repeat constructor|].
  destruct r as [|g r]; [repeat constructor|]. case_decide; [repeat constructor|]. case_decide; [|repeat constructor].
  destruct (IH (next_groups (g :: r)) (pos + g)) as [H1 H2]. split.
  - constructor; [done|]. eapply Forall_impl; [exact H2|]. cbn. intros. lia.
  - constructor; [lia|]. eapply Forall_impl; [exact H2|]. cbn. intros. lia.
Qed.

Definition env_ok (E : env) : Prop := grouping E = [] -> sep E = [].

(** The groups that are left. *)
Definition rest (E : env) (group : nat) : list Z :=
  if decide (group = length (grouping E)) then drop (length (grouping E) - 1) (grouping E) else drop group (grouping E).
Definition state_ok (E : env) (group : nat) : Prop :=
  (group <= length (grouping E))%nat /\
  (group = length (grouping E) -> match rest E group with g :: _ => 0 < g /\ g <> 127 | [] => False end).

Lemma group_next_ok E group pos : grouping E <> [] -> sep E <> [] -> state_ok E group ->
  exists g r, rest E group = g :: r /\
  if decide (g <= 0 \/ g = 127) then FormatSpecs.group_next E group pos = Ok (max_int, (group, pos))
  else exists group', state_ok E group' /\ rest E group' = next_groups (g :: r) /\
       FormatSpecs.group_next E group pos = Ok (pos + g, (group', pos + g)).
Proof.
  intros Hg Hs [Hle Hlast]. unfold FormatSpecs.group_next.
  destruct (sep E) as [|c cs] eqn:Hsep; [done|]. clear Hs.
  destruct (decide (group = length (grouping E))) as [He|He].
  - specialize (Hlast He). unfold rest in *. rewrite decide_True in Hlast |- * by done.
    destruct (drop (length (grouping E) - 1) (grouping E)) as [|g r] eqn:Hd; [done|]. exists g, r. split; [done|].
    rewrite decide_False by lia.
    assert (Hlk : grouping E !! (length (grouping E) - 1)%nat = Some g).
    { rewrite <- (Nat.add_0_r (length (grouping E) - 1)), <- lookup_drop, Hd. done. }
    unfold get. rewrite Hlk. cbn [bind].
    assert (r = []) as ->.
    { apply (f_equal length) in Hd. rewrite drop_length in Hd. cbn in Hd. destruct r; [done|]. cbn in Hd.
      destruct (grouping E); [done|]. cbn in Hd. lia. }
    exists group. split; [|split; [by rewrite decide_True|done]].
    split; [lia|]. intros _. unfold rest. rewrite decide_True by done. by rewrite Hd.
  - assert (Hlt : (group < length (grouping E))%nat) by lia.
    destruct (lookup_lt_is_Some_2 _ _ Hlt) as [g Hg']. unfold rest at 1. rewrite decide_False by done.
    rewrite (drop_S _ _ _ Hg'). exists g, (drop (S group) (grouping E)). split; [done|].
    unfold get. rewrite Hg'. cbn [bind]. case_decide as Hc; [done|]. exists (S group).
    assert (Hr : rest E (S group) = next_groups (g :: drop (S group) (grouping E))).
    { unfold rest. case_decide as He'.
      - rewrite (drop_ge _ (S group)) by lia. cbn [next_groups]. replace (length (grouping E) - 1)%nat with group by lia.
        rewrite (drop_S _ _ _ Hg'). by rewrite (drop_ge _ (S group)) by lia.
      - destruct (lookup_lt_is_Some_2 (grouping E) (S group)) as [g' Hg'']; [lia|]. by rewrite (drop_S _ _ _ Hg''). }
    split; [|split; [done|done]]. split; [lia|]. intros He'. rewrite Hr. rewrite (drop_ge _ (S group)) by lia. cbn. lia.
Qed.

Definition first_ends (E : env) (n : nat) : list Z := match sep E with [] => [] | _ => ends n (grouping E) 0 (Z.of_nat n) end.

Lemma rest_0 E : grouping E <> [] -> rest E 0 = grouping E.
Proof. intros H. unfold rest. rewrite decide_False; [done|]. destruct (grouping E); done. Qed.
Lemma state_0 E : grouping E <> [] -> state_ok E 0.
Proof. intros H. split; [lia|]. intros E0. destruct (grouping E); done. Qed.

Lemma count_separators_ok E n : env_ok E -> Z.of_nat n <= max_int ->
  count_separators E (Z.of_nat n) = Ok (Z.of_nat (length (first_ends E n))).
Proof.
  intros HE Hn. unfold count_separators, first_ends. rewrite Nat2Z.id.
  destruct (sep E) as [|c cs] eqn:Hs.
  { cbn [loop]. unfold FormatSpecs.group_next. rewrite Hs. cbn [bind]. by rewrite decide_False by lia. }
  assert (Hg : grouping E <> []) by (intros H0%HE; congruence).
  assert (H : forall fuel count group pos, state_ok E group -> 0 <= pos -> (Z.to_nat (Z.of_nat n - pos) <= fuel)%nat ->
    loop (S fuel) (fun '(count, (group, pos)) =>
      let* (i, st) := FormatSpecs.group_next E group pos in
      Ok (if decide (Z.of_nat n > i) then inl (count + 1, st) else inr count)) (count, (group, pos))
    = Ok (count + Z.of_nat (length (ends fuel (rest E group) pos (Z.of_nat n))))).
  { induction fuel as [|fuel IH]; intros count group pos Hst Hpos Hfuel.
    - cbn [loop ends length]. destruct (group_next_ok E group pos Hg ltac:(by rewrite Hs) Hst) as (g & r & Hr & Hgn).
      case_decide.
      + rewrite Hgn. cbn [bind]. rewrite decide_False by lia. f_equal. lia.
      + destruct Hgn as (group' & Hst' & Hr' & Hgn). rewrite Hgn. cbn [bind]. rewrite decide_False by lia. f_equal. lia.
    - destruct (group_next_ok E group pos Hg ltac:(by rewrite Hs) Hst) as (g & r & Hr & Hgn).
      cbn [loop ends] in *. rewrite Hr. destruct (decide (g <= 0 \/ g = 127)).
      + rewrite Hgn. cbn [bind]. rewrite decide_False by lia. f_equal. cbn. lia.
      + destruct Hgn as (group' & Hst' & Hr' & Hgn). rewrite Hgn. cbn [bind].
        destruct (decide (pos + g < Z.of_nat n)).
        * rewrite decide_True by lia. rewrite IH by (first [assumption | lia]). rewrite Hr'. cbn [length]. f_equal. lia.
        * rewrite decide_False by lia. f_equal. cbn. lia. }
  rewrite H; [|by apply state_0|lia|lia]. by rewrite rest_0 by done.
Qed.

Lemma separators_ok E n : env_ok E -> Z.of_nat n <= max_int ->
  loop (S n) (fun '(separators, (group, pos)) =>
    let* (i, st) := FormatSpecs.group_next E group pos in
    Ok (if decide (i = 0) then inr separators
        else if decide (i >= Z.of_nat n) then inr separators
        else inl (separators ++ [i], st))) ([0], (0%nat, 0))
  = Ok (0 :: first_ends E n).
Proof.
  intros HE Hn. unfold first_ends.
  destruct (sep E) as [|c cs] eqn:Hs.
  { cbn [loop]. unfold FormatSpecs.group_next. rewrite Hs. cbn [bind]. rewrite decide_False by done. by rewrite decide_True by lia. }
  assert (Hg : grouping E <> []) by (intros H0%HE; congruence).
  assert (H : forall fuel seps group pos, state_ok E group -> 0 <= pos -> (Z.to_nat (Z.of_nat n - pos) <= fuel)%nat ->
    loop (S fuel) (fun '(separators, (group, pos)) =>
      let* (i, st) := FormatSpecs.group_next E group pos in
      Ok (if decide (i = 0) then inr separators
          else if decide (i >= Z.of_nat n) then inr separators
          else inl (separators ++ [i], st))) (seps, (group, pos))
    = Ok (seps ++ ends fuel (rest E group) pos (Z.of_nat n))).
  { induction fuel as [|fuel IH]; intros seps group pos Hst Hpos Hfuel.
    - cbn [loop ends]. rewrite app_nil_r. destruct (group_next_ok E group pos Hg ltac:(by rewrite Hs) Hst) as (g & r & Hr & Hgn).
      case_decide.
      + rewrite Hgn. cbn [bind]. rewrite decide_False by done. by rewrite decide_True by lia.
      + destruct Hgn as (group' & Hst' & Hr' & Hgn). rewrite Hgn. cbn [bind]. rewrite decide_False by lia. by rewrite decide_True by lia.
    - destruct (group_next_ok E group pos Hg ltac:(by rewrite Hs) Hst) as (g & r & Hr & Hgn).
      cbn [loop ends] in *. rewrite Hr. destruct (decide (g <= 0 \/ g = 127)).
      + rewrite Hgn. cbn [bind]. rewrite decide_False by done. rewrite decide_True by lia. by rewrite app_nil_r.
      + destruct Hgn as (group' & Hst' & Hr' & Hgn). rewrite Hgn. cbn [bind]. rewrite decide_False by lia.
        destruct (decide (pos + g < Z.of_nat n)).
        * rewrite decide_False by lia. rewrite IH by (first [assumption | lia]). rewrite Hr'. by rewrite <- app_assoc.
        * rewrite decide_True by lia. by rewrite app_nil_r. }
  rewrite H; [|by apply state_0|lia|lia]. by rewrite rest_0 by done.
Qed.

(** The digits with [sep] wherever the number of digits left is in [P]. *)
Fixpoint interleave (sep : list Z) (P : list Z) (ds : list Z) : list Z :=
  match ds with
  | [] => []
  | d :: ds => d :: (if decide (Z.of_nat (length ds) ∈ P) then sep else []) ++ interleave sep P ds
  end.

Lemma interleave_grouped s gs P ds : ds <> [] -> 0 ∉ P ->
  (forall k, 0 < k < Z.of_nat (length ds) -> k ∈ P <-> group_end gs k) -> grouped s gs ds (interleave s P ds).
Proof.
  intros Hne H0. induction ds as [|d ds IH]; intros HP; [done|]. cbn [interleave]. cbn [length] in HP.
  destruct ds as [|d' ds'].
  - rewrite decide_False by done. constructor.
  - assert (Hg : grouped s gs (d' :: ds') (interleave s P (d' :: ds'))).
    { apply IH; [done|]. intros k Hk. apply HP. cbn in *. lia. }
    case_decide as Hin.
    + apply grouped_sep; [done| |done]. apply HP; [cbn; lia|done].
    + apply grouped_no_sep; [done| |done]. intros H. apply Hin, HP; [cbn; lia|done].
Qed.
Lemma interleave_no_sep P ds : interleave [] P ds = ds.
Proof. induction ds as [|d ds IH]; [done|]. cbn [interleave]. rewrite IH. by case_decide. Qed.
Lemma grouped_empty_sep gs ds : ds <> [] -> grouped [] gs ds ds.
Proof.
  intros Hne. rewrite <- (interleave_no_sep (ends (length ds) gs 0 (Z.of_nat (length ds))) ds) at 2.
  apply interleave_grouped; [done| |].
  - rewrite elem_of_ends by lia. lia.
  - intros k Hk. rewrite elem_of_ends by lia. rewrite Z.sub_0_r. tauto.
Qed.

Lemma interleave_length s P ds : NoDup P -> Forall (fun k => 0 < k < Z.of_nat (length ds)) P ->
  length (interleave s P ds) = (length ds + length P * length s)%nat.
Proof.
  revert P. induction ds as [|d ds IH]; intros P Hnd Hf; cbn [interleave length].
  - destruct P as [|k P]; [done|]. apply Forall_cons in Hf as [Hk _]. cbn in Hk. lia.
  - rewrite app_length. set (P' := filter (fun k => k <> Z.of_nat (length ds)) P).
    assert (Heq : interleave s P ds = interleave s P' ds).
    { assert (H : forall l, (length l <= length ds)%nat -> interleave s P l = interleave s P' l).
      { induction l as [|x l IHl]; intros Hl; [done|]. cbn in Hl. cbn [interleave]. rewrite IHl by lia. do 2 f_equal.
        assert (Hiff : Z.of_nat (length l) ∈ P' <-> Z.of_nat (length l) ∈ P).
        { unfold P'. rewrite elem_of_list_filter. split; [tauto|]. intros. split; [lia|done]. }
        destruct (decide (Z.of_nat (length l) ∈ P)); [by rewrite decide_True by tauto|by rewrite decide_False by tauto]. }
      by apply H. }
    rewrite Heq, IH.
    + assert (Hlen : length P = (length P' + if decide (Z.of_nat (length ds) ∈ P) then 1 else 0)%nat).
      { unfold P'. clear -Hnd. induction Hnd as [|x P Hx Hnd IH]; [done|]. rewrite filter_cons.
        destruct (decide (x <> Z.of_nat (length ds))) as [Hn|Hn].
        - cbn [length]. rewrite IH. destruct (decide (Z.of_nat (length ds) ∈ P)).
          + rewrite decide_True by (by right). lia.
          + rewrite decide_False; [lia|]. intros [|]%elem_of_cons; [lia|done].
        - assert (x = Z.of_nat (length ds)) as -> by (destruct (decide (x = Z.of_nat (length ds))); tauto).
          cbn [length]. rewrite decide_False in IH by done. rewrite decide_True by left. lia. }
      rewrite Hlen. case_decide; cbn; lia.
    + by apply NoDup_filter.
    + apply Forall_forall. intros k Hk. unfold P' in Hk. apply elem_of_list_filter in Hk as [Hk Hin].
      rewrite Forall_forall in Hf. specialize (Hf _ Hin). cbn in Hf. lia.
Qed.

Lemma group_apply_ok E out ds : env_ok E -> Z.of_nat (length ds) <= max_int ->
  group_apply E out ds = Ok (out ++ interleave (sep E) (first_ends E (length ds)) ds).
Proof.
  intros HE Hn. unfold group_apply. rewrite separators_ok by done. cbn [bind].
  set (P := first_ends E (length ds)).
  assert (HP : StronglySorted Z.lt P /\ Forall (fun k => 0 < k < Z.of_nat (length ds)) P).
  { unfold P, first_ends. destruct (sep E); [repeat constructor|apply ends_sorted]. }
  destruct HP as [Hsort Hrange].
  set (body := fun (i : nat) '(out, sep_index) => _).
  assert (H : forall rem i (out : list Z) (P1 P2 : list Z), P = P1 ++ P2 -> drop i ds = rem -> (i <= length ds)%nat ->
    Forall (fun k => k <= Z.of_nat (length rem)) P1 -> Forall (fun k => Z.of_nat (length rem) < k) P2 ->
    exists idx, for_up (length rem) i body (out, Z.of_nat (length P1))
      = Ok (out ++ (if decide (Z.of_nat (length rem) ∈ P) then sep E else []) ++ interleave (sep E) P rem, idx)).
  { clear out. induction rem as [|d rem IH]; intros i out P1 P2 HP12 Hdrop Hi H1 H2.
    - cbn [length for_up interleave]. exists (Z.of_nat (length P1)). rewrite decide_False; [by rewrite app_nil_r|].
      intros Hin. rewrite Forall_forall in Hrange. apply Hrange in Hin. lia.
    - assert (Hlen : (length ds - i = S (length rem))%nat).
      { apply (f_equal length) in Hdrop. rewrite drop_length in Hdrop. done. }
      assert (Hd : ds !! i = Some d).
      { rewrite <- (Nat.add_0_r i), <- lookup_drop, Hdrop. done. }
      cbn [length for_up]. unfold body at 1. rewrite decide_True by lia. rewrite Nat2Z.id.
      assert (Hget : get (0 :: P) (length P1) = Ok (default 0 (last P1))).
      { unfold get. rewrite HP12. destruct P1 as [|x P1 _] using rev_ind; [done|].
        rewrite last_snoc, app_length. cbn [length]. rewrite Nat.add_1_r.
        change ((0 :: (P1 ++ [x]) ++ P2) !! S (length P1)) with (((P1 ++ [x]) ++ P2) !! length P1).
        rewrite <- app_assoc. cbn [app]. by rewrite list_lookup_middle. }
      rewrite Hget. cbn [bind]. rewrite Hlen. unfold get at 1. rewrite Hd. cbn [bind].
      assert (Hdrop' : drop (S i) ds = rem).
      { rewrite <- Nat.add_1_r, <- drop_drop, Hdrop. done. }
      destruct (decide (Z.of_nat (S (length rem)) = default 0 (last P1))) as [He|He].
      + destruct P1 as [|x P1 _] using rev_ind; [cbn in He; lia|]. rewrite last_snoc in He. cbn in He. subst x.
        rewrite app_length. cbn [length]. replace (Z.of_nat (length P1 + 1) - 1) with (Z.of_nat (length P1)) by lia.
        assert (Hlt : Forall (fun k => k < Z.of_nat (S (length rem))) P1).
        { rewrite HP12, <- app_assoc in Hsort. clear -Hsort. induction P1 as [|y P1 IH]; [constructor|].
          cbn in Hsort. apply StronglySorted_inv in Hsort as [Hs Hf]. constructor; [|by apply IH].
          rewrite Forall_forall in Hf. apply Hf. rewrite elem_of_app. right. left. }
        destruct (IH (S i) ((out ++ sep E) ++ [d]) P1 (Z.of_nat (S (length rem)) :: P2)) as [idx Hidx].
        * rewrite HP12. by rewrite <- app_assoc.
        * done.
        * lia.
        * eapply Forall_impl; [exact Hlt|]. cbn. intros. lia.
        * constructor; [lia|]. eapply Forall_impl; [exact H2|]. cbn. intros. lia.
        * exists idx. etransitivity; [exact Hidx|]. do 2 f_equal. cbn [interleave].
          rewrite (decide_True (P := Z.of_nat (S (length rem)) ∈ P)).
          { by rewrite <- !app_assoc. }
          rewrite HP12, <- app_assoc, elem_of_app. right. left.
      + assert (Hnin : Z.of_nat (S (length rem)) ∉ P1).
        { intros Hin. destruct P1 as [|x P1 _] using rev_ind; [by apply elem_of_nil in Hin|].
          rewrite last_snoc in He. cbn in He. apply elem_of_app in Hin as [Hin|Hin%elem_of_list_singleton]; [|congruence].
          apply Forall_app in H1 as [_ Hx]. apply Forall_cons in Hx as [Hx _]. cbn in Hx.
          assert (Z.of_nat (S (length rem)) < x); [|lia].
          rewrite HP12, <- app_assoc in Hsort. clear -Hsort Hin. induction P1 as [|y P1 IH]; [by apply elem_of_nil in Hin|].
          cbn in Hsort. apply StronglySorted_inv in Hsort as [Hs Hf].
          apply elem_of_cons in Hin as [->|Hin]; [|by apply IH]. rewrite Forall_forall in Hf. apply Hf. rewrite elem_of_app. right. left. }
        destruct (IH (S i) (out ++ [d]) P1 P2) as [idx Hidx].
        * done.
        * done.
        * lia.
        * rewrite Forall_forall in H1 |- *. intros k Hk. specialize (H1 k Hk). cbn in H1.
          assert (k <> Z.of_nat (S (length rem))) by congruence. lia.
        * eapply Forall_impl; [exact H2|]. cbn. intros. lia.
        * exists idx. etransitivity; [exact Hidx|]. do 2 f_equal. cbn [interleave].
          rewrite (decide_False (P := Z.of_nat (S (length rem)) ∈ P)).
          { by rewrite <- !app_assoc. }
          rewrite HP12, elem_of_app. intros [?|Hin]; [done|]. rewrite Forall_forall in H2. apply H2 in Hin. cbn in Hin. lia. }
  destruct (H ds 0%nat out P []) as [idx Hidx].
  - by rewrite app_nil_r.
  - done.
  - lia.
  - eapply Forall_impl; [exact Hrange|]. cbn. intros. lia.
  - constructor.
  - replace (Z.of_nat (length (0 :: P)) - 1) with (Z.of_nat (length P)) by (cbn; lia).
    rewrite Hidx. cbn [bind]. f_equal. f_equal. rewrite decide_False; [done|].
    intros Hin. rewrite Forall_forall in Hrange. apply Hrange in Hin. lia.
Qed.

Lemma first_ends_grouped E ds : ds <> [] -> sep E <> [] ->
  grouped (sep E) (grouping E) ds (interleave (sep E) (first_ends E (length ds)) ds).
Proof.
  intros Hne Hs. unfold first_ends. destruct (sep E) as [|c cs] eqn:Hsep; [done|].
  apply interleave_grouped; [done| |].
  - rewrite elem_of_ends by lia. lia.
  - intros k Hk. rewrite elem_of_ends by lia. rewrite Z.sub_0_r. tauto.
Qed.
