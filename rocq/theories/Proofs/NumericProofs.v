(** Proofs about the integer and order functions. *)
From Verif Require Import Base.Cpp Model.Numeric Spec.NumericSpec.
Set Default Proof Using "Type".

Section order.
Context {A : Type} (lt : A -> A -> bool) (Hlt : total_order lt).

Lemma am_refl x : at_most lt x x.
Proof using Hlt. apply (lt_irrefl _ Hlt). Qed.
Lemma am_trans x y z : at_most lt x y -> at_most lt y z -> at_most lt x z.
Proof using Hlt.
  unfold at_most. intros Hxy Hyz. destruct (lt z x) eqn:E; [|done]. destruct (lt x y) eqn:E1.
  - rewrite (lt_trans _ Hlt z x y) in Hyz; done.
  - assert (x = y) as -> by (apply (lt_total _ Hlt); done). congruence.
Qed.
Lemma lt_am x y : lt x y = true -> at_most lt x y.
Proof using Hlt.
  unfold at_most. intros H. destruct (lt y x) eqn:E; [|done].
  pose proof (lt_trans _ Hlt x y x H E). rewrite (lt_irrefl _ Hlt) in *. done.
Qed.

Lemma max_spec l r : at_most lt l (max_ lt l r) /\ at_most lt r (max_ lt l r) /\
  (max_ lt l r = l \/ max_ lt l r = r).
Proof using Hlt.
  unfold max_. destruct (lt r l) eqn:E.
  - split_and!; [apply am_refl|by apply lt_am|by left].
  - split_and!; [done|apply am_refl|by right].
Qed.
Lemma min_spec l r : at_most lt (min_ lt l r) l /\ at_most lt (min_ lt l r) r /\
  (min_ lt l r = l \/ min_ lt l r = r).
Proof using Hlt.
  unfold min_. destruct (lt l r) eqn:E.
  - split_and!; [apply am_refl|by apply lt_am|by left].
  - split_and!; [done|apply am_refl|by right].
Qed.

Lemma clamp_spec lower upper x : at_most lt lower upper ->
  at_most lt lower (clamp lt lower upper x) /\ at_most lt (clamp lt lower upper x) upper /\
  (at_most lt lower x -> at_most lt x upper -> clamp lt lower upper x = x) /\
  (at_most lt upper x -> clamp lt lower upper x = upper) /\
  (at_most lt x lower -> clamp lt lower upper x = lower).
Proof using Hlt.
  intros H. unfold clamp. destruct (lt upper x) eqn:E1; [|destruct (lt x lower) eqn:E2].
  - split_and!; [done|apply am_refl| |done|].
    + unfold at_most. congruence.
    + intros Hx. pose proof (am_trans x lower upper Hx H). unfold at_most in *. congruence.
  - split_and!; [apply am_refl|done| | |done].
    + unfold at_most. congruence.
    + intros Hx. pose proof (am_trans _ _ _ H Hx). unfold at_most in *. congruence.
  - split_and!; [done|done|done| |].
    + intros Hx. apply (lt_total _ Hlt); done.
    + intros Hx. apply (lt_total _ Hlt); done.
Qed.

Lemma max_elem_ge start xs : at_most lt start (max_elem lt start xs) /\
  (forall x, x ∈ xs -> at_most lt x (max_elem lt start xs)) /\
  (max_elem lt start xs = start \/ max_elem lt start xs ∈ xs).
Proof using Hlt.
  unfold max_elem. revert start. induction xs as [|x xs IH]; intros start; simpl.
  - split_and!; [apply am_refl|intros; set_solver|by left].
  - destruct (IH (max_ lt start x)) as (H1 & H2 & H3).
    destruct (max_spec start x) as (M1 & M2 & M3). split_and!.
    + by eapply am_trans.
    + intros y [->|Hy]%elem_of_cons; [by eapply am_trans|by apply H2].
    + destruct H3 as [->|H3]; [|right; set_solver]. destruct M3 as [->| ->]; [by left|right; set_solver].
Qed.
Lemma min_elem_le start xs : at_most lt (min_elem lt start xs) start /\
  (forall x, x ∈ xs -> at_most lt (min_elem lt start xs) x) /\
  (min_elem lt start xs = start \/ min_elem lt start xs ∈ xs).
Proof using Hlt.
  unfold min_elem. revert start. induction xs as [|x xs IH]; intros start; simpl.
  - split_and!; [apply am_refl|intros; set_solver|by left].
  - destruct (IH (min_ lt start x)) as (H1 & H2 & H3).
    destruct (min_spec start x) as (M1 & M2 & M3). split_and!.
    + by eapply am_trans.
    + intros y [->|Hy]%elem_of_cons; [by eapply am_trans|by apply H2].
    + destruct H3 as [->|H3]; [|right; set_solver]. destruct M3 as [->| ->]; [by left|right; set_solver].
Qed.

(** The extreme element, if the start does not beat all elements. *)
Lemma max_elem_ok start xs x : x ∈ xs -> at_most lt start x ->
  max_elem lt start xs ∈ xs /\ forall y, y ∈ xs -> at_most lt y (max_elem lt start xs).
Proof using Hlt.
  intros Hx Hs. destruct (max_elem_ge start xs) as (H1 & H2 & H3). split; [|done].
  destruct H3 as [E|]; [|done]. assert (x = max_elem lt start xs) as <-; [|done].
  apply (lt_total _ Hlt); [|by apply H2]. rewrite E. done.
Qed.
Lemma min_elem_ok start xs x : x ∈ xs -> at_most lt x start ->
  min_elem lt start xs ∈ xs /\ forall y, y ∈ xs -> at_most lt (min_elem lt start xs) y.
Proof using Hlt.
  intros Hx Hs. destruct (min_elem_le start xs) as (H1 & H2 & H3). split; [|done].
  destruct H3 as [E|]; [|done]. assert (x = min_elem lt start xs) as <-; [|done].
  apply (lt_total _ Hlt); [by apply H2|]. rewrite E. done.
Qed.
Lemma max_elem_start start xs : (forall x, x ∈ xs -> lt x start = true) ->
  max_elem lt start xs = start /\ start ∉ xs.
Proof using Hlt.
  intros H. split.
  - unfold max_elem. induction xs as [|x xs IH]; [done|]. simpl. unfold max_ at 2. rewrite H by set_solver.
    apply IH. intros; apply H; set_solver.
  - intros Hin. specialize (H _ Hin). rewrite (lt_irrefl _ Hlt) in H. done.
Qed.
End order.

Local Open Scope Z_scope.

Lemma Z_order : total_order Z.ltb.
Proof.
  split.
  - intros x. apply Z.ltb_irrefl.
  - intros x y z. rewrite !Z.ltb_lt. lia.
  - intros x y. rewrite !Z.ltb_ge. lia.
Qed.
Lemma Z_at_most x y : at_most Z.ltb x y <-> x <= y.
Proof. unfold at_most. by rewrite Z.ltb_ge. Qed.

(** ** Integer types *)
Lemma in_range_spec t z : in_range t z = true <-> lo t <= z <= hi t.
Proof. unfold in_range. rewrite andb_true_iff, !Z.leb_le. done. Qed.

Lemma range_width t : 0 < bits t -> hi t = lo t + 2 ^ bits t - 1.
Proof.
  intros H. unfold lo, hi. destruct (signed t); [|lia].
  replace (2 ^ bits t) with (2 * 2 ^ (bits t - 1)); [lia|].
  rewrite <- Z.pow_succ_r by lia. f_equal. lia.
Qed.

Lemma conv_id t z : 0 < bits t -> in_range t z = true -> conv t z = z.
Proof.
  intros Hb Hz. apply in_range_spec in Hz. rewrite range_width in Hz by done. unfold conv.
  rewrite Z.mod_small; lia.
Qed.
Lemma conv_range t z : 0 < bits t -> in_range t (conv t z) = true.
Proof.
  intros Hb. apply in_range_spec. rewrite range_width by done. unfold conv.
  pose proof (Z.mod_pos_bound (z - lo t) (2 ^ bits t)). assert (0 < 2 ^ bits t) by (apply Z.pow_pos_nonneg; lia). lia.
Qed.

Lemma promote_range t z : 0 < bits t -> in_range t z = true -> in_range (promote t) z = true.
Proof.
  intros Hb Hz. unfold promote. destruct (bits t <? 32) eqn:E; [|done]. apply Z.ltb_lt in E.
  apply in_range_spec in Hz. apply in_range_spec. unfold lo, hi in *. simpl.
  destruct (signed t).
  - assert (2 ^ (bits t - 1) <= 2 ^ 31) by (apply Z.pow_le_mono_r; lia).
    change (Z.pow_pos 2 31) with (2 ^ 31). lia.
  - assert (2 ^ bits t <= 2 ^ 31) by (apply Z.pow_le_mono_r; lia).
    change (Z.pow_pos 2 31) with (2 ^ 31). lia.
Qed.

Lemma arith_ok t z : 0 < bits t -> in_range t z = true ->
  (let* z := arith (promote t) z in Ok (conv t z)) = Ok z.
Proof.
  intros Hb Hz. unfold arith. rewrite promote_range by done. simpl. by rewrite conv_id.
Qed.

(** ** Folds *)
Lemma foldl_res_app {A B} (f : A -> B -> res A) a bs cs :
  foldl_res f a (bs ++ cs) = let* a := foldl_res f a bs in foldl_res f a cs.
Proof.
  revert a. induction bs as [|b bs IH]; intros a; simpl; [done|].
  destruct (f a b); simpl; [apply IH|done..].
Qed.

Lemma zsum_app xs ys : zsum (xs ++ ys) = zsum xs + zsum ys.
Proof. unfold zsum. induction xs as [|x xs IH]; simpl; [done|]. rewrite IH. lia. Qed.
Lemma zprod_app xs ys : zprod (xs ++ ys) = zprod xs * zprod ys.
Proof. unfold zprod. induction xs as [|x xs IH]; simpl; [lia|]. rewrite IH. lia. Qed.

Lemma sum_ok t xs : 0 < bits t -> (forall k, in_range t (zsum (take k xs)) = true) ->
  sum t xs = Ok (zsum xs).
Proof.
  intros Hb. unfold sum. induction xs as [|x xs IH] using rev_ind; intros H; [done|].
  rewrite foldl_res_app, IH.
  - simpl. rewrite zsum_app. simpl. unfold op_add. replace (zsum xs + (x + 0)) with (zsum xs + x) by lia.
    rewrite arith_ok; [done|done|]. specialize (H (length (xs ++ [x]))). rewrite firstn_all, zsum_app in H.
    simpl in H. by replace (zsum xs + (x + 0)) with (zsum xs + x) in H by lia.
  - intros k. destruct (decide (k <= length xs)%nat).
    + specialize (H k). by rewrite take_app_le in H.
    + specialize (H (length xs)). rewrite take_app in H. by rewrite take_ge by lia.
Qed.

Lemma product_ok t xs : 0 < bits t -> (forall k, in_range t (zprod (take k xs)) = true) ->
  product t xs = Ok (zprod xs).
Proof.
  intros Hb. unfold product. induction xs as [|x xs IH] using rev_ind; intros H; [done|].
  rewrite foldl_res_app, IH.
  - simpl. rewrite zprod_app. simpl. unfold op_mul. replace (zprod xs * (x * 1)) with (zprod xs * x) by lia.
    rewrite arith_ok; [done|done|]. specialize (H (length (xs ++ [x]))). rewrite firstn_all, zprod_app in H.
    simpl in H. by replace (zprod xs * (x * 1)) with (zprod xs * x) in H by lia.
  - intros k. destruct (decide (k <= length xs)%nat).
    + specialize (H k). by rewrite take_app_le in H.
    + specialize (H (length xs)). rewrite take_app in H. by rewrite take_ge by lia.
Qed.

(** Overflow at the first partial sum that does not fit. *)
Lemma first_bad (P : nat -> bool) n : P n = false -> exists k, (k <= n)%nat /\ P k = false /\ forall j, (j < k)%nat -> P j = true.
Proof.
  induction n as [n IH] using lt_wf_ind. intros Hn.
  destruct (decide (Exists (fun j => P j = false) (seq 0 n))) as [He|Hne].
  - apply Exists_exists in He as (j & Hj & HPj). apply elem_of_seq in Hj.
    destruct (IH j) as (k & ? & ? & ?); [lia|done|]. exists k. split_and!; [lia|done|done].
  - exists n. split_and!; [lia|done|]. intros j Hj. destruct (P j) eqn:E; [done|]. destruct Hne.
    apply Exists_exists. exists j. split; [|done]. apply elem_of_seq. lia.
Qed.

Lemma sum_overflow t xs k : 32 <= bits t -> signed t = true ->
  in_range t (zsum (take k xs)) = false -> sum t xs = UB Overflow.
Proof.
  intros Hb Hs Hk. destruct (first_bad (fun k => in_range t (zsum (take k xs))) k Hk) as (j & _ & Hj & Hlt).
  assert (j <> 0)%nat as Hj0.
  { intros ->. rewrite take_0 in Hj. change (zsum []) with 0 in Hj.
    cut (in_range t 0 = true); [congruence|].
    apply in_range_spec. unfold lo, hi. rewrite Hs. assert (0 < 2 ^ (bits t - 1)) by (apply Z.pow_pos_nonneg; lia). lia. }
  destruct j as [|j]; [done|].
  destruct (decide (j < length xs)%nat) as [Hl|Hl].
  - destruct (lookup_lt_is_Some_2 xs j Hl) as [x Hx].
    rewrite <- (take_drop (S j) xs). unfold sum. rewrite foldl_res_app.
    rewrite (take_S_r xs j x Hx) in *. rewrite foldl_res_app.
    pose proof (sum_ok t (take j xs)) as Hok. unfold sum in Hok. rewrite Hok; [|lia|].
    + rewrite zsum_app in Hj. simpl in Hj |- *. unfold op_add, arith, promote.
      replace (bits t <? 32) with false by (symmetry; apply Z.ltb_ge; lia).
      replace (zsum (take j xs) + x) with (zsum (take j xs) + (x + 0)) by lia.
      by rewrite Hj, Hs.
    + intros i. rewrite take_take. apply Hlt. lia.
  - exfalso. rewrite take_ge in Hj by lia. specialize (Hlt j (Nat.lt_succ_diag_r j)).
    cbn beta in Hlt. rewrite take_ge in Hlt by lia. congruence.
Qed.

Lemma conv_unsigned t z : signed t = false -> conv t z = z mod 2 ^ bits t.
Proof. intros H. unfold conv, lo. rewrite H. by rewrite Z.sub_0_r, Z.add_0_r. Qed.

Lemma arith_unsigned t z : 32 <= bits t -> signed t = false ->
  (let* z := arith (promote t) z in Ok (conv t z)) = Ok (z mod 2 ^ bits t).
Proof.
  intros Hb Hs. unfold promote. replace (bits t <? 32) with false by (symmetry; apply Z.ltb_ge; lia).
  unfold arith. destruct (in_range t z) eqn:E; simpl.
  - by rewrite conv_unsigned.
  - rewrite Hs. simpl. rewrite !conv_unsigned by done. by rewrite Z.mod_mod by (apply Z.pow_nonzero; lia).
Qed.

Lemma sum_wraps t xs : 32 <= bits t -> signed t = false ->
  sum t xs = Ok (zsum xs mod 2 ^ bits t).
Proof.
  intros Hb Hs. assert (2 ^ bits t <> 0) by (apply Z.pow_nonzero; lia).
  unfold sum. induction xs as [|x xs IH] using rev_ind; [done|].
  rewrite foldl_res_app, IH. simpl. unfold op_add. rewrite arith_unsigned by done. simpl.
  rewrite zsum_app. simpl. rewrite Z.add_mod_idemp_l by done. do 2 f_equal. lia.
Qed.
Lemma product_wraps t xs : 32 <= bits t -> signed t = false ->
  product t xs = Ok (zprod xs mod 2 ^ bits t).
Proof.
  intros Hb Hs. assert (2 ^ bits t <> 0) by (apply Z.pow_nonzero; lia).
  assert (1 < 2 ^ bits t) by (apply Z.pow_gt_1; lia).
  unfold product. induction xs as [|x xs IH] using rev_ind; [simpl; by rewrite Z.mod_small by lia|].
  rewrite foldl_res_app, IH. simpl. unfold op_mul. rewrite arith_unsigned by done. simpl.
  rewrite zprod_app. simpl. rewrite Z.mul_mod_idemp_l by done. do 2 f_equal. lia.
Qed.

(** ** Compile-time folds *)
Definition size64 : ity := ITy 64 false.

Lemma size64_range z : 0 <= z <= 2 ^ 31 - 1 -> in_range size64 z = true.
Proof. intros H. apply in_range_spec. unfold size64, lo, hi. cbn [bits signed]. lia. Qed.
Lemma int32_range z : 0 <= z <= 2 ^ 31 - 1 -> in_range int32 z = true.
Proof. intros H. apply in_range_spec. unfold int32, lo, hi. cbn [bits signed]. lia. Qed.

Lemma zsum_nonneg xs : Forall (fun x => 0 <= x) xs -> 0 <= zsum xs.
Proof. unfold zsum. induction 1; simpl; lia. Qed.
Lemma zprod_pos xs : Forall (fun x => 0 <= x) xs -> 0 <= zprod xs.
Proof. unfold zprod. induction 1; simpl; lia. Qed.

Lemma through_int z : 0 <= z <= 2 ^ 31 - 1 -> conv size64 (conv int32 (z mod 2 ^ 64)) = z.
Proof.
  intros H. rewrite (Z.mod_small z) by lia. rewrite (conv_id int32) by (done || by apply int32_range).
  apply conv_id; [done|]. by apply size64_range.
Qed.
Lemma through_int_large z : 2 ^ 31 <= z < 2 ^ 32 -> conv size64 (conv int32 (z mod 2 ^ 64)) = z + 2 ^ 64 - 2 ^ 32.
Proof.
  intros H. rewrite (Z.mod_small z) by lia. unfold conv, int32, size64, lo. cbn [bits signed].
  rewrite (Z.mod_eq (z - _)) by lia. replace ((z - - 2 ^ (32 - 1)) / 2 ^ 32) with 1; [|].
  - rewrite Z.sub_0_r, Z.add_0_r. rewrite <- (Z.mod_add _ 1) by lia. rewrite Z.mod_small by lia. lia.
  - apply Z.div_unique with (z - 2 ^ 31); lia.
Qed.

Lemma ct_sum_eq xs : ct_sum size64 xs = Ok (conv size64 (conv int32 (zsum xs mod 2 ^ 64))).
Proof. unfold ct_sum. by rewrite sum_wraps. Qed.
Lemma ct_product_eq xs : ct_product size64 xs = Ok (conv size64 (conv int32 (zprod xs mod 2 ^ 64))).
Proof. unfold ct_product. by rewrite product_wraps. Qed.

Lemma all_ok bs : all_ bs = true <-> forall b, b ∈ bs -> b = true.
Proof.
  unfold all_. assert (forall c, fold_left andb bs c = true <-> c = true /\ forall b, b ∈ bs -> b = true) as H.
  { induction bs as [|b bs IH]; intros c; simpl.
    - split; [intros; split; [done|]; intros; set_solver|tauto].
    - rewrite IH, andb_true_iff. split.
      + intros [[-> ->] H]. split; [done|]. intros b [->|?]%elem_of_cons; auto.
      + intros [-> H]. split; [split; [done|]|]; [apply H; set_solver|]. intros; apply H; set_solver. }
  rewrite H. tauto.
Qed.
Lemma any_ok bs : any_ bs = true <-> true ∈ bs.
Proof.
  unfold any_. assert (forall c, fold_left orb bs c = true <-> c = true \/ true ∈ bs) as H.
  { induction bs as [|b bs IH]; intros c; simpl.
    - split; [by left|]. intros [?|?]; [done|set_solver].
    - rewrite IH, orb_true_iff, elem_of_cons. split.
      + intros [[?|?]|?]; auto.
      + intros [?|[?|?]]; auto. }
  rewrite H. split; [intros [?|?]; done|by right].
Qed.

Lemma swap_ok {A} (mvd : A -> A) i j (l : list A) x y : l !! i = Some x -> l !! j = Some y ->
  swap_ mvd i j l = Ok (<[j := x]> (<[i := y]> l)).
Proof.
  intros Hi Hj. assert (i < length l)%nat by (by eapply lookup_lt_Some).
  assert (j < length l)%nat by (by eapply lookup_lt_Some).
  unfold swap_, get, put. rewrite Hi. simpl. rewrite decide_True by done. simpl.
  destruct (decide (i = j)) as [<-|Hne].
  - rewrite list_lookup_insert by done. simpl. rewrite !insert_length, decide_True by done. simpl.
    rewrite !insert_length, decide_True by done. simpl. rewrite !insert_length, decide_True by done.
    by rewrite !list_insert_insert.
  - rewrite list_lookup_insert_ne, Hj by done. simpl. rewrite !insert_length, decide_True by done. simpl.
    rewrite !insert_length, decide_True by done. simpl. rewrite !insert_length, decide_True by done.
    f_equal. rewrite (list_insert_commute _ j i (mvd y)) by done. rewrite list_insert_insert.
    rewrite (list_insert_commute _ i j) by done. rewrite list_insert_insert.
    rewrite (list_insert_commute _ j i) by done. done.
Qed.

(** ** abs, mixed clamp, narrow sums, squares of 16-bit numbers *)
Lemma abs_ok t x : 0 < bits t -> in_range t x = true -> (signed t = true -> x <> lo t) ->
  abs_ t x = Ok (Z.abs x).
Proof.
  intros Hb Hx Hlo. unfold abs_. destruct (x <? 0) eqn:E.
  - apply Z.ltb_lt in E. rewrite arith_ok; [by rewrite Z.abs_neq by lia|done|].
    apply in_range_spec in Hx. apply in_range_spec. unfold lo, hi in *. destruct (signed t); [|lia].
    assert (0 < 2 ^ (bits t - 1)) by (apply Z.pow_pos_nonneg; lia). specialize (Hlo eq_refl). lia.
  - apply Z.ltb_ge in E. by rewrite Z.abs_eq by lia.
Qed.
Lemma abs_lo_wide t : 32 <= bits t -> signed t = true -> abs_ t (lo t) = UB Overflow.
Proof.
  intros Hb Hs. assert (0 < 2 ^ (bits t - 1)) by (apply Z.pow_pos_nonneg; lia).
  assert (lo t = - 2 ^ (bits t - 1)) as E by (unfold lo; by rewrite Hs).
  unfold abs_. replace (lo t <? 0) with true by (symmetry; apply Z.ltb_lt; lia).
  unfold promote. replace (bits t <? 32) with false by (symmetry; apply Z.ltb_ge; lia).
  unfold arith. replace (in_range t (- lo t)) with false; [by rewrite Hs|].
  symmetry. apply not_true_iff_false. rewrite in_range_spec. unfold hi. rewrite Hs. lia.
Qed.
Lemma abs_lo_narrow t : 0 < bits t < 32 -> signed t = true -> abs_ t (lo t) = Ok (lo t).
Proof.
  intros Hb Hs. assert (0 < 2 ^ (bits t - 1)) by (apply Z.pow_pos_nonneg; lia).
  assert (lo t = - 2 ^ (bits t - 1)) as E by (unfold lo; by rewrite Hs).
  assert (2 ^ bits t = 2 * 2 ^ (bits t - 1)) as E2 by (rewrite <- Z.pow_succ_r by lia; f_equal; lia).
  unfold abs_. replace (lo t <? 0) with true by (symmetry; apply Z.ltb_lt; lia).
  unfold promote. replace (bits t <? 32) with true by (symmetry; apply Z.ltb_lt; lia).
  unfold arith. assert (in_range int32 (- lo t) = true) as ->.
  { apply int32_range. assert (2 ^ (bits t - 1) <= 2 ^ 30) by (apply Z.pow_le_mono_r; lia). lia. }
  simpl. f_equal. unfold conv. replace (- lo t - lo t) with (1 * 2 ^ bits t) by lia.
  by rewrite Z.mod_mul by lia.
Qed.

Lemma promote_signed t : signed t = true -> signed (promote t) = true.
Proof. unfold promote. by destruct (_ <? _). Qed.
Lemma promote_bits t : 0 < bits t -> 32 <= bits (promote t) /\ bits t <= bits (promote t).
Proof. unfold promote. intros H. destruct (bits t <? 32) eqn:E; [apply Z.ltb_lt in E|apply Z.ltb_ge in E]; simpl; lia. Qed.
Lemma widen s b z : signed s = true -> 0 < bits s <= b -> in_range s z = true -> in_range (ITy b true) z = true.
Proof.
  intros Hs Hb Hz. apply in_range_spec in Hz. apply in_range_spec. unfold lo, hi in *. rewrite Hs in Hz. simpl.
  assert (2 ^ (bits s - 1) <= 2 ^ (b - 1)) by (apply Z.pow_le_mono_r; lia). lia.
Qed.
Lemma common_signed s t : signed s = true -> signed t = true ->
  common s t = ITy (Z.max (bits (promote s)) (bits (promote t))) true.
Proof. intros Hs Ht. unfold common. by rewrite !promote_signed. Qed.
Lemma common_l s t z : signed s = true -> signed t = true -> 0 < bits s -> 0 < bits t ->
  in_range s z = true -> in_range (common s t) z = true.
Proof.
  intros Hs Ht Hb1 Hb2 Hz. rewrite common_signed by done. apply widen with s; [done| |done].
  pose proof (promote_bits s). lia.
Qed.
Lemma common_r s t z : signed s = true -> signed t = true -> 0 < bits s -> 0 < bits t ->
  in_range t z = true -> in_range (common s t) z = true.
Proof.
  intros Hs Ht Hb1 Hb2 Hz. rewrite common_signed by done. apply widen with t; [done| |done].
  pose proof (promote_bits t). lia.
Qed.

Lemma clamp_signed tl tu tx lower upper x :
  signed tl = true -> signed tu = true -> signed tx = true ->
  0 < bits tl -> 0 < bits tu -> 0 < bits tx ->
  in_range tl lower = true -> in_range tu upper = true -> in_range tx x = true ->
  clamp_mixed tl tu tx lower upper x = clamp Z.ltb lower upper x.
Proof.
  intros Sl Su Sx Bl Bu Bx Hl Hu Hx. unfold clamp_mixed, clamp.
  assert (signed (common tl tx) = true) as Sc by (by rewrite common_signed).
  assert (0 < bits (common tl tx)) as Bc by (rewrite common_signed by done; simpl; pose proof (promote_bits tl); lia).
  assert (forall s t, signed s = true -> signed t = true -> 0 < bits s -> 0 < bits t -> 0 < bits (common s t)) as Bg.
  { intros s t H1 H2 H3 H4. rewrite common_signed by done. simpl. pose proof (promote_bits s). lia. }
  rewrite (conv_id _ upper), (conv_id _ x), (conv_id _ x), (conv_id _ lower), (conv_id _ upper), (conv_id _ lower), (conv_id _ x);
    auto using common_l, common_r.
Qed.

Lemma clamp_negative lower upper x :
  in_range int32 lower = true -> in_range int32 x = true -> in_range uint32 upper = true ->
  x < 0 -> upper <= hi int32 -> clamp_mixed int32 uint32 int32 lower upper x = upper.
Proof.
  intros Hl Hx Hu Hneg Hup. apply in_range_spec in Hl, Hx, Hu. unfold clamp_mixed.
  change (common int32 uint32) with uint32. change (common int32 int32) with int32.
  change (common uint32 int32) with uint32.
  assert (conv uint32 upper = upper) as -> by (by apply conv_id; [|apply in_range_spec]).
  change (lo int32) with (- 2 ^ 31) in *. change (hi int32) with (2 ^ 31 - 1) in *.
  change (lo uint32) with 0 in *.
  assert (conv uint32 x = x + 2 ^ 32) as ->.
  { unfold conv. change (lo uint32) with 0. change (bits uint32) with 32.
    rewrite <- (Z.mod_add _ 1) by lia. rewrite Z.mod_small by lia. lia. }
  replace (upper <? x + 2 ^ 32) with true by (symmetry; apply Z.ltb_lt; lia). done.
Qed.

Lemma conv_add t x y : 0 < bits t -> conv t (conv t x + y) = conv t (x + y).
Proof.
  intros Hb. assert (2 ^ bits t <> 0) by (apply Z.pow_nonzero; lia). unfold conv at 1 3. f_equal.
  unfold conv. replace ((x - lo t) `mod` 2 ^ bits t + lo t + y - lo t) with ((x - lo t) mod 2 ^ bits t + y) by lia.
  rewrite Z.add_mod_idemp_l by done. f_equal. lia.
Qed.

Lemma sum_narrow t xs : 0 < bits t <= 16 -> Forall (fun x => in_range t x = true) xs ->
  sum t xs = Ok (conv t (zsum xs)).
Proof.
  intros Hb. unfold sum. induction xs as [|x xs IH] using rev_ind; intros H.
  - simpl. rewrite conv_id; [done|lia|]. apply in_range_spec. unfold lo, hi.
    destruct (signed t).
    + assert (0 < 2 ^ (bits t - 1)) by (apply Z.pow_pos_nonneg; lia). change (zsum []) with 0. lia.
    + assert (0 < 2 ^ bits t) by (apply Z.pow_pos_nonneg; lia). change (zsum []) with 0. lia.
  - apply Forall_app in H as [Hxs Hx]. inversion Hx as [|? ? Hx0 _]; subst.
    rewrite foldl_res_app, (IH Hxs). simpl. unfold op_add.
    pose proof (conv_range t (zsum xs)) as Hc. specialize (Hc ltac:(lia)).
    unfold promote. replace (bits t <? 32) with true by (symmetry; apply Z.ltb_lt; lia).
    unfold arith. assert (in_range int32 (conv t (zsum xs) + x) = true) as ->.
    { apply in_range_spec in Hc, Hx0. apply in_range_spec. change (lo int32) with (- 2 ^ 31). change (hi int32) with (2 ^ 31 - 1).
      unfold lo, hi in *. destruct (signed t).
      - assert (2 ^ (bits t - 1) <= 2 ^ 15) by (apply Z.pow_le_mono_r; lia). lia.
      - assert (2 ^ bits t <= 2 ^ 16) by (apply Z.pow_le_mono_r; lia). lia. }
    simpl. rewrite conv_add, zsum_app by lia. simpl. do 2 f_equal. lia.
Qed.

Lemma square16 x : 46341 <= x <= 65535 -> square (ITy 16 false) x = UB Overflow.
Proof.
  intros H. unfold square, op_mul, arith, promote. cbn [bits signed].
  change (16 <? 32) with true. cbv iota.
  replace (in_range int32 (x * x)) with false; [done|]. symmetry. apply not_true_iff_false.
  rewrite in_range_spec. change (hi int32) with (2 ^ 31 - 1). nia.
Qed.

Lemma square_ok t x : 0 < bits t -> in_range t (x * x) = true -> square t x = Ok (x * x).
Proof. intros. unfold square, op_mul. by apply arith_ok. Qed.

(** Non-negative numbers survive every conversion to a common type. *)
Lemma hi_mono s t : 0 < bits s -> bits s <= bits t -> (signed s = true \/ signed t = false) -> hi s <= hi t.
Proof.
  intros Hb Hle Hs. unfold hi. assert (2 ^ (bits s - 1) <= 2 ^ (bits t - 1)) by (apply Z.pow_le_mono_r; lia).
  assert (2 ^ bits s <= 2 ^ bits t) by (apply Z.pow_le_mono_r; lia).
  assert (2 ^ (bits t - 1) <= 2 ^ bits t) by (apply Z.pow_le_mono_r; lia).
  destruct (signed s), (signed t); (lia || by destruct Hs).
Qed.
Lemma hi_strict s t : 0 < bits s -> bits s < bits t -> hi s <= hi t.
Proof.
  intros Hb Hlt. unfold hi. assert (2 ^ bits s <= 2 ^ (bits t - 1)) by (apply Z.pow_le_mono_r; lia).
  assert (2 ^ (bits s - 1) <= 2 ^ bits s) by (apply Z.pow_le_mono_r; lia).
  assert (2 ^ (bits t - 1) <= 2 ^ bits t) by (apply Z.pow_le_mono_r; lia).
  destruct (signed s), (signed t); lia.
Qed.
Lemma hi_promote t : 0 < bits t -> hi t <= hi (promote t).
Proof.
  intros Hb. unfold promote. destruct (bits t <? 32) eqn:E; [|lia]. apply Z.ltb_lt in E. by apply hi_strict.
Qed.
Lemma hi_common s t : 0 < bits s -> 0 < bits t ->
  hi s <= hi (common s t) /\ hi t <= hi (common s t) /\ 0 < bits (common s t).
Proof.
  intros Hs Ht. pose proof (hi_promote s Hs). pose proof (hi_promote t Ht).
  destruct (promote_bits s Hs) as [Bs _]. destruct (promote_bits t Ht) as [Bt _].
  unfold common. set (p := promote s) in *. set (q := promote t) in *. clearbody p q.
  destruct (Bool.eqb (signed p) (signed q)) eqn:E.
  - apply eqb_prop in E.
    assert (hi p <= hi (ITy (Z.max (bits p) (bits q)) (signed p))).
    { apply hi_mono; simpl; [lia|lia|]. destruct (signed p); auto. }
    assert (hi q <= hi (ITy (Z.max (bits p) (bits q)) (signed p))).
    { apply hi_mono; simpl; [lia|lia|]. rewrite E. destruct (signed q); auto. }
    simpl. lia.
  - destruct (signed p) eqn:Sp, (signed q) eqn:Sq; simpl in E; try done.
    + destruct (bits p <=? bits q) eqn:L; [apply Z.leb_le in L|apply Z.leb_gt in L].
      * assert (hi p <= hi q) by (apply hi_mono; [lia|lia|auto]). lia.
      * assert (hi q <= hi p) by (apply hi_strict; lia). lia.
    + destruct (bits q <=? bits p) eqn:L; [apply Z.leb_le in L|apply Z.leb_gt in L].
      * assert (hi q <= hi p) by (apply hi_mono; [lia|lia|auto]). lia.
      * assert (hi p <= hi q) by (apply hi_strict; lia). lia.
Qed.
Lemma conv_nonneg t z : 0 < bits t -> 0 <= z <= hi t -> conv t z = z.
Proof.
  intros Hb Hz. apply conv_id; [done|]. apply in_range_spec. split; [|lia]. unfold lo. destruct (signed t); [|lia].
  assert (0 <= 2 ^ (bits t - 1)) by (apply Z.pow_nonneg; lia). lia.
Qed.
Lemma clamp_nonneg tl tu tx lower upper x : 0 < bits tl -> 0 < bits tu -> 0 < bits tx ->
  0 <= lower <= hi tl -> 0 <= upper <= hi tu -> 0 <= x <= hi tx ->
  clamp_mixed tl tu tx lower upper x = clamp Z.ltb lower upper x.
Proof.
  intros Bl Bu Bx Hl Hu Hx. unfold clamp_mixed, clamp.
  destruct (hi_common tx tu Bx Bu) as (A1 & A2 & A3). destruct (hi_common tx tl Bx Bl) as (B1 & B2 & B3).
  destruct (hi_common tl tx Bl Bx) as (C1 & C2 & C3). destruct (hi_common tu (common tl tx) Bu C3) as (D1 & D2 & D3).
  rewrite !(conv_nonneg _ upper), !(conv_nonneg _ x), !(conv_nonneg _ lower) by lia. done.
Qed.
