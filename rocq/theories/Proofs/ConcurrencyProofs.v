(** Invariants of the concurrent queues. *)
From Verif Require Import Base.Cpp Spec.ConcurrencySpec Model.Concurrency.
Set Default Proof Using "Type".

(** ** Generic facts *)
Lemma executes_snoc {O R S} (spec : O -> S -> option (S * R)) s ops s1 o r s2 :
  executes spec s ops s1 -> spec o s1 = Some (s2, r) -> executes spec s (ops ++ [(o, r)]) s2.
Proof.
  revert s. induction ops as [|[o' r'] ops IH]; intros s; simpl.
  - intros -> H. eauto.
  - intros (s' & H1 & H2) H. eauto.
Qed.
Lemma executes_app {O R S} (spec : O -> S -> option (S * R)) s ops1 ops2 s2 :
  executes spec s (ops1 ++ ops2) s2 <-> exists s1, executes spec s ops1 s1 /\ executes spec s1 ops2 s2.
Proof.
  revert s. induction ops1 as [|[o r] ops1 IH]; intros s; simpl.
  - split; [eauto|]. intros (s1 & -> & H). done.
  - split.
    + intros (s' & H1 & H2). apply IH in H2 as (s1 & H3 & H4). eauto 10.
    + intros (s1 & (s' & H1 & H2) & H3). exists s'. split; [done|]. apply IH. eauto.
Qed.

Section weights.
Context {P : Type} (c : P -> nat).
Definition total (l : list P) : nat := sum_list (c <$> l).
Lemma total_insert l i p0 p : l !! i = Some p0 -> total (<[i := p]> l) + c p0 = total l + c p.
Proof.
  unfold total. revert i. induction l as [|x l IH]; intros [|i] H; simplify_eq/=; [lia|]. specialize (IH i H). lia.
Qed.
Lemma total_replicate p n : c p = 0 -> total (replicate n p) = 0.
Proof. intros H. unfold total. induction n as [|n IH]; [done|]. cbn. rewrite H. apply IH. Qed.
Lemma total_zero l : (forall p, p ∈ l -> c p = 0) -> total l = 0.
Proof.
  unfold total. induction l as [|x l IH]; intros H; [done|]. csimpl. rewrite H by set_solver. rewrite IH; [done|].
  intros; apply H; set_solver.
Qed.
End weights.

Section proofs.
Context {A : Type} (cap : option nat).
Notation state := (state A). Notation pc := (pc A). Notation act := (act A).
Notation event := (event (qcall A) (qret A)).
Implicit Types (s : state) (p : pc) (h : list event).

(** ** The mutex *)
Definition holds p : bool :=
  match p with
  | EPush _ | ENotify | EUnlock | DTest | DWait | DFront | DPop _ | DUnlock _
  | TTest | TFront | TPop _ | TUnlock _ => true
  | _ => false
  end.
Definition excl s : Prop :=
  (forall i p, threads s !! i = Some p -> holds p = bool_decide (owner s = Some i)) /\
  (forall i, owner s = Some i -> i < length (threads s)).

(** What the threads inside the critical section know. *)
Definition knows (l : list A) p : Prop :=
  match p with
  | DWait => l = []
  | DFront | TFront => l <> []
  | DPop v | TPop v => exists l', l = v :: l'
  | _ => True
  end.
Definition local s : Prop := forall i p, threads s !! i = Some p -> knows (q s) p.

Lemma knows_free l p : holds p = false -> knows l p.
Proof. by destruct p. Qed.

(** ** The history *)
Definition status_of p : status :=
  match p with
  | Idle => Free
  | ELock v | EPush v => Called (Enq v)
  | ENotify | EUnlock => Took Done
  | DLock | DTest | DWait | DWaiting | DFront | DPop _ => Called Deq
  | DUnlock v => Took (Got v)
  | TLock | TTest | TFront | TPop _ => Called TryDeq
  | TUnlock r => Took (Maybe r)
  | IRead => Called IsEmpty
  | IReturn b => Took (Bool b)
  end.
Definition traced s h : Prop :=
  exists tr f, visible tr = h /\ follows (fun _ => Free) tr f /\
    executes (queue_spec cap) [] (points tr) (q s) /\
    forall i p, threads s !! i = Some p -> f i = status_of p.

Lemma visible_app (tr1 tr2 : list (levent (qcall A) (qret A))) : visible (tr1 ++ tr2) = visible tr1 ++ visible tr2.
Proof. apply omap_app. Qed.
Lemma points_app (tr1 tr2 : list (levent (qcall A) (qret A))) : points (tr1 ++ tr2) = points tr1 ++ points tr2.
Proof. apply omap_app. Qed.

Lemma thread_update (l : list pc) i p j p' : <[i := p]> l !! j = Some p' ->
  (j = i /\ p' = p /\ i < length l) \/ (j <> i /\ l !! j = Some p').
Proof.
  intros H. destruct (decide (j = i)) as [->|Hne].
  - apply list_lookup_insert_Some in H as [(? & <- & ?)|(? & ?)]; [by left|done].
  - rewrite list_lookup_insert_ne in H by done. by right.
Qed.

Lemma traced_silent s h i p p' s' : traced s h -> threads s' = <[i := p']> (threads s) -> threads s !! i = Some p -> status_of p' = status_of p ->
  q s' = q s -> traced s' h.
Proof.
  intros (tr & f & H1 & H2 & H3 & H4) Ht Hi Hp Hq. exists tr, f. rewrite Hq. split_and!; [done..|].
  intros j pj Hj. rewrite Ht in Hj. apply thread_update in Hj as [(-> & -> & _)|(Hne & Hj)]; [|by apply H4].
  rewrite Hp. by apply H4.
Qed.
Lemma traced_call s h i p' s' o : traced s h -> threads s' = <[i := p']> (threads s) -> threads s !! i = Some Idle -> status_of p' = Called o ->
  q s' = q s -> traced s' (h ++ [Call i o]).
Proof.
  intros (tr & f & H1 & H2 & H3 & H4) Ht Hi Hp Hq. exists (tr ++ [Vis (Call i o)]), (set_status f i (Called o)).
  rewrite Hq, visible_app, points_app, H1. simpl. rewrite app_nil_r. split_and!; [done| |done|].
  - apply follows_call; [done|]. by apply (H4 i Idle).
  - intros j pj Hj. rewrite Ht in Hj. unfold set_status.
    apply thread_update in Hj as [(-> & -> & _)|(Hne & Hj)]; [by rewrite decide_True|].
    rewrite decide_False by done. by apply H4.
Qed.
Lemma traced_ret s h i p s' r : traced s h -> threads s' = <[i := Idle]> (threads s) -> threads s !! i = Some p -> status_of p = Took r ->
  q s' = q s -> traced s' (h ++ [Ret i r]).
Proof.
  intros (tr & f & H1 & H2 & H3 & H4) Ht Hi Hp Hq. exists (tr ++ [Vis (Ret i r)]), (set_status f i Free).
  rewrite Hq, visible_app, points_app, H1. simpl. rewrite app_nil_r. split_and!; [done| |done|].
  - apply follows_ret; [done|]. rewrite <- Hp. by apply H4.
  - intros j pj Hj. rewrite Ht in Hj. unfold set_status.
    apply thread_update in Hj as [(-> & -> & _)|(Hne & Hj)]; [by rewrite decide_True|].
    rewrite decide_False by done. by apply H4.
Qed.
Lemma traced_lin s h i p p' s' o r : traced s h -> threads s' = <[i := p']> (threads s) -> threads s !! i = Some p -> status_of p = Called o ->
  status_of p' = Took r -> queue_spec cap o (q s) = Some (q s', r) ->
  traced s' h.
Proof.
  intros (tr & f & H1 & H2 & H3 & H4) Ht Hi Hp Hp' Hq. exists (tr ++ [Lin i o r]), (set_status f i (Took r)).
  rewrite visible_app, points_app, H1. simpl. rewrite app_nil_r. split_and!; [done| | |].
  - apply follows_lin; [done|]. rewrite <- Hp. by apply H4.
  - by eapply executes_snoc.
  - intros j pj Hj. rewrite Ht in Hj. unfold set_status.
    apply thread_update in Hj as [(-> & -> & _)|(Hne & Hj)]; [by rewrite decide_True|].
    rewrite decide_False by done. by apply H4.
Qed.

(** ** Steps and the mutex *)
(** A step of thread [i] that keeps, takes or releases the mutex. *)
Lemma excl_keep s i p p' s' : excl s -> threads s' = <[i := p']> (threads s) -> threads s !! i = Some p -> holds p' = holds p ->
  owner s' = owner s -> excl s'.
Proof.
  intros [H1 H2] Ht Hi Hp Ho. split.
  - intros j pj Hj. rewrite Ht in Hj. rewrite Ho.
    apply thread_update in Hj as [(-> & -> & _)|(Hne & Hj)]; [|by apply H1]. rewrite Hp. by apply H1.
  - intros j Hj. rewrite Ht, insert_length. rewrite Ho in Hj. by apply H2.
Qed.
Lemma excl_take s i p p' s' : excl s -> threads s' = <[i := p']> (threads s) -> threads s !! i = Some p -> owner s = None -> holds p' = true ->
  owner s' = Some i -> excl s'.
Proof.
  intros [H1 H2] Ht Hi Hn Hp Ho. split.
  - intros j pj Hj. rewrite Ht in Hj. rewrite Ho.
    apply thread_update in Hj as [(-> & -> & _)|(Hne & Hj)]; [by rewrite bool_decide_true|].
    rewrite (H1 j pj Hj), Hn. rewrite !bool_decide_false; congruence.
  - intros j Hj. rewrite Ht, insert_length. rewrite Ho in Hj. simplify_eq. by eapply lookup_lt_Some.
Qed.
Lemma excl_release s i p p' s' : excl s -> threads s' = <[i := p']> (threads s) -> threads s !! i = Some p -> holds p = true -> holds p' = false ->
  owner s' = None -> excl s'.
Proof.
  intros [H1 H2] Ht Hi Hp Hp' Ho. pose proof (H1 i p Hi) as Hoi. rewrite Hp in Hoi. symmetry in Hoi.
  apply bool_decide_eq_true in Hoi. split.
  - intros j pj Hj. rewrite Ht in Hj. rewrite Ho.
    apply thread_update in Hj as [(-> & -> & _)|(Hne & Hj)]; [by rewrite bool_decide_false|].
    rewrite (H1 j pj Hj), Hoi. rewrite !bool_decide_false; congruence.
  - intros j Hj. congruence.
Qed.

Lemma local_keep s i p' s' : local s -> threads s' = <[i := p']> (threads s) -> knows (q s) p' -> q s' = q s ->
  local s'.
Proof.
  intros H Ht Hp Hq j pj Hj. rewrite Hq. rewrite Ht in Hj.
  apply thread_update in Hj as [(-> & -> & _)|(Hne & Hj)]; [done|]. by eapply H.
Qed.
(** The queue changes: only the owner of the mutex knows anything. *)
Lemma local_change s i p p' s' : excl s -> threads s' = <[i := p']> (threads s) -> threads s !! i = Some p -> holds p = true -> knows (q s') p' ->
  local s'.
Proof.
  intros [H1 H2] Ht Hi Hp Hp' j pj Hj. rewrite Ht in Hj.
  apply thread_update in Hj as [(-> & -> & _)|(Hne & Hj)]; [done|]. apply knows_free.
  pose proof (H1 i p Hi) as Hoi. rewrite Hp in Hoi. symmetry in Hoi. apply bool_decide_eq_true in Hoi.
  rewrite (H1 j pj Hj), Hoi. apply bool_decide_false. congruence.
Qed.

(** ** BlockingQ: no lost wake-up *)
(** Threads that will look at the queue, or wake up a thread that will. *)
Definition attends p : nat :=
  match p with DLock | DTest | DFront | DPop _ | ENotify => 1 | _ => 0 end.
Definition attended s : Prop :=
  (exists i, threads s !! i = Some DWaiting) -> length (q s) <= total attends (threads s).

Record inv s h : Prop := {
  inv_excl : excl s; inv_local : local s; inv_traced : traced s h; inv_attended : attended s }.

Lemma init_traced n : traced (init n) [].
Proof.
  exists [], (fun _ => Free). split_and!; [done|constructor|done|].
  intros i p Hi. apply lookup_replicate in Hi as [-> _]. done.
Qed.
Lemma init_excl n : excl (init n).
Proof. split; [|done]. intros i p Hi. apply lookup_replicate in Hi as [-> _]. done. Qed.
Lemma init_local n : local (init n).
Proof. intros i p Hi. apply lookup_replicate in Hi as [-> _]. done. Qed.
Lemma init_inv n : inv (init n) [].
Proof.
  split; [apply init_excl|apply init_local|apply init_traced|]. intros _. simpl. lia.
Qed.

Lemma push_length (l : list A) v : length (push_back cap l v) <= S (length l).
Proof.
  unfold push_back. destruct cap as [n|]; [destruct (decide _)|].
  - rewrite app_length. destruct l; simpl; lia.
  - rewrite app_length. simpl. lia.
  - rewrite app_length. simpl. lia.
Qed.

(** [attended] after thread [i] goes from [p] to [p']. *)
Lemma attended_step s i p p' s' : attended s -> threads s' = <[i := p']> (threads s) -> threads s !! i = Some p ->
  (p' = DWaiting -> q s' = []) ->
  length (q s') + attends p <= length (q s) + attends p' \/ q s' = [] -> attended s'.
Proof.
  intros H Ht Hi Hw Hl [j Hj]. rewrite Ht in Hj. pose proof (total_insert attends _ _ _ p' Hi) as E. rewrite Ht.
  apply thread_update in Hj as [(-> & <- & _)|(Hne & Hj)].
  - rewrite Hw by done. simpl. lia.
  - destruct Hl as [Hl| ->]; [|simpl; lia]. specialize (H (ex_intro _ j Hj)). lia.
Qed.

Lemma existsb_waiting s : existsb is_waiting (threads s) = false -> forall i, threads s !! i <> Some DWaiting.
Proof.
  intros H i Hi. apply not_true_iff_false in H. apply H. apply existsb_exists. exists DWaiting. split; [|done].
  apply elem_of_list_In. by eapply elem_of_list_lookup_2.
Qed.

Ltac finish_step :=
  first
    [ eapply excl_keep; [eassumption|reflexivity|eassumption|reflexivity|reflexivity]
    | eapply excl_release; [eassumption|reflexivity|eassumption|reflexivity|reflexivity|reflexivity]
    | eapply local_keep; [done|reflexivity| |reflexivity]; done
    | eapply traced_silent; [eassumption|reflexivity|eassumption| |reflexivity]; done
    | eapply traced_call; [eassumption|reflexivity|eassumption| |reflexivity]; done
    | eapply traced_ret; [eassumption|reflexivity|eassumption| |reflexivity]; done
    | eapply attended_step; [eassumption|reflexivity|eassumption|done|]; simpl; lia ].

Lemma blocking_inv s h i a s' e : inv s h -> blocking_step cap i a s = Some (Ok (s', e)) -> inv s' (h ++ e).
Proof.
  intros [He Hl Htr Hat] Hs. unfold blocking_step in Hs. destruct (threads s !! i) as [p|] eqn:Hi; [|done].
  pose proof (Hl i p Hi) as Hk.
  assert (forall p' s1 e1, acquire i p' s = Some (Ok (s1, e1)) -> holds p' = true -> holds p = false ->
     knows (q s) p' -> status_of p' = status_of p -> (attends p <= attends p' /\ p' <> DWaiting) ->
     inv s1 (h ++ e1)) as Hacq.
  { intros p' s1 e1 Ha Hh Hhp Hkp Hst [Hat1 Hat2]. unfold acquire in Ha. destruct (owner s) eqn:Ho; [done|]. simplify_eq.
    rewrite app_nil_r. split.
    - eapply excl_take; [eassumption|reflexivity|eassumption|done|exact Hh|reflexivity].
    - eapply local_keep; [done|reflexivity|exact Hkp|reflexivity].
    - eapply traced_silent; [eassumption|reflexivity|exact Hi|exact Hst|reflexivity].
    - eapply attended_step; [eassumption|reflexivity|exact Hi|done|]. simpl. lia. }
  destruct p as [|v|v| | | | | | | |v|v| | | |v|r| |b], a as [[v'| | |]| |[w|]|]; try done.
  - (* start enqueue *) simplify_eq. split; finish_step.
  - (* start dequeue *) simplify_eq. split; finish_step.
  - (* lock *) eapply Hacq; [exact Hs|done..|]. simpl. split; [lia|done].
  - (* push *)
    simplify_eq. rewrite app_nil_r. split.
    + finish_step.
    + eapply local_change; [eassumption|reflexivity|eassumption|done| ]. done.
    + eapply traced_lin; [eassumption|reflexivity|eassumption|reflexivity|reflexivity| ]. done.
    + eapply attended_step; [eassumption|reflexivity|eassumption|done|]. simpl. pose proof (push_length (q s) v). lia.
  - (* notify a thread *)
    destruct (threads s !! w) as [[]|] eqn:Hw; try done. simplify_eq. rewrite app_nil_r.
    assert (i <> w) by congruence. assert (threads (goto w DLock s) !! i = Some ENotify) as Hi2.
    { simpl. by rewrite list_lookup_insert_ne. }
    assert (excl (goto w DLock s)) by finish_step. assert (local (goto w DLock s)) by finish_step.
    assert (traced (goto w DLock s) h) by finish_step.
    split; [finish_step..|]. intros _. simpl.
    pose proof (total_insert attends _ _ _ EUnlock Hi2) as E1. pose proof (total_insert attends _ _ _ DLock Hw) as E2.
    specialize (Hat (ex_intro _ w Hw)). simpl in *. lia.
  - (* notify nobody *)
    destruct (existsb is_waiting (threads s)) eqn:Hw; [done|]. simplify_eq. rewrite app_nil_r.
    split; [finish_step..|]. intros [j Hj]. simpl in Hj.
    apply thread_update in Hj as [(_ & ? & _)|(_ & Hj)]; [done|]. by eapply existsb_waiting in Hj.
  - (* unlock *) simplify_eq. split; finish_step.
  - (* lock *) eapply Hacq; [exact Hs|done..|]. simpl. split; [lia|done].
  - (* test *)
    simplify_eq. rewrite app_nil_r. destruct (q s) as [|x l] eqn:Eq.
    + split; [finish_step| |finish_step|].
      * eapply local_keep; [done|reflexivity| |reflexivity]. done.
      * eapply attended_step; [eassumption|reflexivity|eassumption|done|]. right. done.
    + split; [finish_step| |finish_step|].
      * eapply local_keep; [done|reflexivity| |reflexivity]. by rewrite Eq.
      * eapply attended_step; [eassumption|reflexivity|eassumption|done|]. left. done.
  - (* wait *)
    simplify_eq. rewrite app_nil_r. simpl in Hk. split; [finish_step..|].
    eapply attended_step; [eassumption|reflexivity|eassumption|done|]. by right.
  - (* spurious wake-up *) simplify_eq. rewrite app_nil_r. split; finish_step.
  - (* front *)
    destruct (q s) as [|x l] eqn:Eq; [done|]. simplify_eq. rewrite app_nil_r. split; [finish_step| |finish_step..].
    eapply local_keep; [done|reflexivity| |reflexivity]. rewrite Eq. simpl. eauto.
  - (* pop *)
    destruct Hk as [l Eq]. rewrite Eq in Hs. simplify_eq. rewrite app_nil_r. split.
    + finish_step.
    + eapply local_change; [eassumption|reflexivity|eassumption|done| ]. done.
    + eapply traced_lin; [eassumption|reflexivity|eassumption|reflexivity|reflexivity| ]. rewrite Eq. done.
    + eapply attended_step; [eassumption|reflexivity|eassumption|done|]. rewrite Eq. simpl. lia.
  - (* unlock *) simplify_eq. split; finish_step.
Qed.

Lemma blocking_safe s h i a k : inv s h -> blocking_step cap i a s <> Some (UB k).
Proof.
  intros [He Hl Htr Hat] Hs. unfold blocking_step, acquire in Hs. destruct (threads s !! i) as [p|] eqn:Hi; [|done].
  pose proof (Hl i p Hi) as Hk.
  destruct p as [|v|v| | | | | | | |v|v| | | |v|r| |b], a as [[v'| | |]| |[w|]|]; try done.
  - by destruct (owner s).
  - by destruct (threads s !! w) as [[]|].
  - by destruct (existsb is_waiting (threads s)).
  - by destruct (owner s).
  - destruct (q s); done.
  - destruct Hk as [l Eq]. by rewrite Eq in Hs.
Qed.
Lemma blocking_never_other s i a : blocking_step cap i a s <> Some Throw /\ blocking_step cap i a s <> Some Diverge.
Proof.
  split; intros Hs; unfold blocking_step, acquire in Hs; repeat case_match; simplify_eq.
Qed.

Lemma blocking_reach n s h : reach (blocking_step cap) n s h -> inv s h.
Proof. induction 1; [apply init_inv|]. by eapply blocking_inv. Qed.

Lemma excl_race s : excl s -> (forall i, threads s !! i <> Some IRead) -> ~ race s.
Proof.
  intros [H1 H2] Hr (i & j & p & p' & a & Hne & Hi & Hj & Ht & Ht').
  assert (holds p = true) as Hp by (by destruct p). assert (holds p' = true) as Hp'.
  { destruct p'; try done. by destruct (Hr j). }
  rewrite (H1 i p Hi) in Hp. rewrite (H1 j p' Hj) in Hp'.
  apply bool_decide_eq_true in Hp, Hp'. congruence.
Qed.

(** The program points of BlockingQ. *)
Definition blocking_pc p : Prop :=
  match p with TLock | TTest | TFront | TPop _ | TUnlock _ | IRead | IReturn _ => False | _ => True end.
Lemma blocking_pcs n s h : reach (blocking_step cap) n s h -> forall i p, threads s !! i = Some p -> blocking_pc p.
Proof.
  induction 1 as [|s h i a s' e Hr IH Hs]; intros j pj Hj.
  - apply lookup_replicate in Hj as [-> _]. done.
  - unfold blocking_step, acquire in Hs. repeat case_match; simplify_eq; simpl in Hj;
      repeat (apply thread_update in Hj as [(-> & -> & _)|(_ & Hj)]; [repeat case_match; done|]); by eapply IH.
Qed.

(** ** Progress *)
Definition weight p : nat :=
  match p with
  | Idle | DWaiting => 0
  | ELock _ => 9 | EPush _ => 8 | ENotify => 7 | EUnlock => 1
  | DLock => 5 | DTest => 4 | DFront => 3 | DPop _ => 2 | DUnlock _ => 1 | DWait => 1
  | TLock => 5 | TTest => 4 | TFront => 3 | TPop _ => 2 | TUnlock _ => 1
  | IRead => 2 | IReturn _ => 1
  end.

Ltac weigh Hi p' := pose proof (total_insert weight _ _ _ p' Hi); simpl in *; lia.

Lemma blocking_weight s i a s' e : internal a -> blocking_step cap i a s = Some (Ok (s', e)) ->
  total weight (threads s') < total weight (threads s).
Proof.
  intros Ha Hs. unfold blocking_step, acquire in Hs. destruct (threads s !! i) as [p|] eqn:Hi; [|done].
  destruct p as [|v|v| | | | | | | |v|v| | | |v|r| |b], a as [[v'| | |]| |[w|]|]; try done.
  - destruct (owner s); [done|]. simplify_eq. weigh Hi (EPush v).
  - simplify_eq. weigh Hi (@ENotify A).
  - destruct (threads s !! w) as [[]|] eqn:Hw; try done. simplify_eq. assert (i <> w) by congruence.
    assert (<[w := DLock]> (threads s) !! i = Some ENotify) as Hi2 by (by rewrite list_lookup_insert_ne).
    pose proof (total_insert weight _ _ _ EUnlock Hi2). pose proof (total_insert weight _ _ _ DLock Hw). simpl in *. lia.
  - destruct (existsb is_waiting (threads s)); [done|]. simplify_eq. weigh Hi (@EUnlock A).
  - simplify_eq. weigh Hi (@Idle A).
  - destruct (owner s); [done|]. simplify_eq. weigh Hi (@DTest A).
  - simplify_eq. destruct (q s); [weigh Hi (@DWait A)|weigh Hi (@DFront A)].
  - simplify_eq. weigh Hi (@DWaiting A).
  - destruct (q s) as [|x l]; [done|]. simplify_eq. weigh Hi (DPop x).
  - destruct (q s) as [|x l]; [done|]. simplify_eq. weigh Hi (DUnlock v).
  - simplify_eq. weigh Hi (@Idle A).
Qed.

Lemma blocking_stuck n s h : reach (blocking_step cap) n s h ->
  (forall i a, internal a -> blocking_step cap i a s = None) ->
  (forall i p, threads s !! i = Some p -> p = Idle \/ p = DWaiting) /\
  ((exists i, threads s !! i = Some DWaiting) -> q s = []).
Proof.
  intros Hr Hstuck. pose proof (blocking_reach n s h Hr) as [He Hl _ Hat]. pose proof (blocking_pcs n s h Hr) as Hpc.
  assert (forall i p, threads s !! i = Some p -> p = Idle \/ p = DWaiting) as Hall.
  { intros i p Hi. destruct He as [H1 H2]. destruct (owner s) as [j|] eqn:Ho.
    - exfalso. destruct (lookup_lt_is_Some_2 (threads s) j) as [pj Hj]; [by apply H2|].
      pose proof (H1 j pj Hj) as Hh. rewrite bool_decide_true in Hh by done.
      pose proof (Hpc j pj Hj) as Hb. pose proof (Hl j pj Hj) as Hk.
      pose proof (Hstuck j Go I) as G. unfold blocking_step in G. rewrite Hj in G.
      destruct pj; try done; simpl in *.
      + (* ENotify *)
        destruct (existsb is_waiting (threads s)) eqn:Hw.
        * apply existsb_exists in Hw as (x & Hx & Hx2). apply elem_of_list_In, elem_of_list_lookup in Hx as [w Hx].
          destruct x; try done. pose proof (Hstuck j (Wake (Some w)) I) as G2. unfold blocking_step in G2.
          rewrite Hj, Hx in G2. done.
        * pose proof (Hstuck j (Wake None) I) as G2. unfold blocking_step in G2. rewrite Hj, Hw in G2. done.
      + destruct (q s); done.
      + destruct Hk as [l Eq]. by rewrite Eq in G.
    - pose proof (H1 i p Hi) as Hh. pose proof (Hpc i p Hi) as Hb.
      pose proof (Hstuck i Go I) as G. unfold blocking_step, acquire in G. rewrite Hi, Ho in G.
      destruct p; try done; auto. }
  split; [done|]. intros Hw. specialize (Hat Hw).
  rewrite total_zero in Hat; [destruct (q s); [done|simpl in Hat; lia]|].
  intros p Hp. apply elem_of_list_lookup in Hp as [i Hi]. destruct (Hall i p Hi) as [-> | ->]; done.
Qed.

Lemma runs_bound (step : nat -> act -> state -> option (res (state * list event))) k s s' :
  (forall s i a s' e, internal a -> step i a s = Some (Ok (s', e)) -> total weight (threads s') < total weight (threads s)) ->
  runs step k s s' -> k + total weight (threads s') <= total weight (threads s).
Proof.
  intros Hw. induction 1 as [|k s i a s1 e s2 Ha Hs Hr IH]; [lia|]. specialize (Hw _ _ _ _ _ Ha Hs). lia.
Qed.
Lemma runs_reach (step : nat -> act -> state -> option (res (state * list event))) n k s s' h :
  reach step n s h -> runs step k s s' -> exists h', reach step n s' (h ++ h').
Proof.
  intros Hr Hk. revert h Hr. induction Hk as [|k s i a s1 e s2 Ha Hs Hk IH]; intros h Hr.
  - exists []. by rewrite app_nil_r.
  - destruct (IH (h ++ e)) as [h' Hh']; [by econstructor|]. exists (e ++ h'). by rewrite app_assoc.
Qed.

(** ** NonBlockingQ *)
Record ninv s h : Prop := { ninv_excl : excl s; ninv_local : local s; ninv_traced : traced s h }.

Lemma nonblocking_inv s h i a s' e : ninv s h -> nonblocking_step cap i a s = Some (Ok (s', e)) -> ninv s' (h ++ e).
Proof.
  intros [He Hl Htr] Hs. unfold nonblocking_step in Hs. destruct (threads s !! i) as [p|] eqn:Hi; [|done].
  pose proof (Hl i p Hi) as Hk.
  assert (forall p' s1 e1, acquire i p' s = Some (Ok (s1, e1)) -> holds p' = true -> holds p = false ->
     knows (q s) p' -> status_of p' = status_of p -> ninv s1 (h ++ e1)) as Hacq.
  { intros p' s1 e1 Ha Hh Hhp Hkp Hst. unfold acquire in Ha. destruct (owner s) eqn:Ho; [done|]. simplify_eq.
    rewrite app_nil_r. split.
    - eapply excl_take; [eassumption|reflexivity|eassumption|done|exact Hh|reflexivity].
    - eapply local_keep; [done|reflexivity|exact Hkp|reflexivity].
    - eapply traced_silent; [eassumption|reflexivity|exact Hi|exact Hst|reflexivity]. }
  destruct p as [|v|v| | | | | | | |v|v| | | |v|r| |b], a as [[v'| | |]| |[w|]|]; try done.
  - simplify_eq. split; finish_step.
  - simplify_eq. split; finish_step.
  - simplify_eq. split; finish_step.
  - eapply Hacq; [exact Hs|done..].
  - simplify_eq. rewrite app_nil_r. split.
    + finish_step.
    + eapply local_change; [eassumption|reflexivity|eassumption|done| ]. done.
    + eapply traced_lin; [eassumption|reflexivity|eassumption|reflexivity|reflexivity| ]. done.
  - simplify_eq. split; finish_step.
  - eapply Hacq; [exact Hs|done..].
  - simplify_eq. rewrite app_nil_r. destruct (q s) as [|x l] eqn:Eq.
    + split; [finish_step|finish_step|].
      eapply traced_lin; [eassumption|reflexivity|eassumption|reflexivity|reflexivity| ]. simpl. by rewrite Eq.
    + split; [finish_step| |finish_step].
      eapply local_keep; [done|reflexivity| |reflexivity]. by rewrite Eq.
  - destruct (q s) as [|x l] eqn:Eq; [done|]. simplify_eq. rewrite app_nil_r. split; [finish_step| |finish_step].
    eapply local_keep; [done|reflexivity| |reflexivity]. rewrite Eq. simpl. eauto.
  - destruct Hk as [l Eq]. rewrite Eq in Hs. simplify_eq. rewrite app_nil_r. split.
    + finish_step.
    + eapply local_change; [eassumption|reflexivity|eassumption|done| ]. done.
    + eapply traced_lin; [eassumption|reflexivity|eassumption|reflexivity|reflexivity| ]. rewrite Eq. done.
  - simplify_eq. split; finish_step.
  - simplify_eq. rewrite app_nil_r. split; [finish_step|finish_step|].
    eapply traced_lin; [eassumption|reflexivity|eassumption|reflexivity|reflexivity| ]. done.
  - simplify_eq. split; finish_step.
Qed.

Lemma nonblocking_reach n s h : reach (nonblocking_step cap) n s h -> ninv s h.
Proof.
  induction 1; [|by eapply nonblocking_inv]. split; [apply init_excl|apply init_local|apply init_traced].
Qed.
Lemma nonblocking_safe s h i a k : ninv s h -> nonblocking_step cap i a s <> Some (UB k).
Proof.
  intros [He Hl Htr] Hs. unfold nonblocking_step, acquire in Hs. destruct (threads s !! i) as [p|] eqn:Hi; [|done].
  pose proof (Hl i p Hi) as Hk.
  destruct p as [|v|v| | | | | | | |v|v| | | |v|r| |b], a as [[v'| | |]| |[w|]|]; try done.
  - by destruct (owner s).
  - by destruct (owner s).
  - destruct (q s); done.
  - destruct Hk as [l Eq]. by rewrite Eq in Hs.
Qed.
Lemma nonblocking_weight s i a s' e : internal a -> nonblocking_step cap i a s = Some (Ok (s', e)) ->
  total weight (threads s') < total weight (threads s).
Proof.
  intros Ha Hs. unfold nonblocking_step, acquire in Hs. destruct (threads s !! i) as [p|] eqn:Hi; [|done].
  destruct p as [|v|v| | | | | | | |v|v| | | |v|r| |b], a as [[v'| | |]| |[w|]|]; try done.
  - destruct (owner s); [done|]. simplify_eq. weigh Hi (EPush v).
  - simplify_eq. weigh Hi (@EUnlock A).
  - simplify_eq. weigh Hi (@Idle A).
  - destruct (owner s); [done|]. simplify_eq. weigh Hi (@TTest A).
  - simplify_eq. destruct (q s); [weigh Hi (@TUnlock A None)|weigh Hi (@TFront A)].
  - destruct (q s) as [|x l]; [done|]. simplify_eq. weigh Hi (TPop x).
  - destruct (q s) as [|x l]; [done|]. simplify_eq. weigh Hi (TUnlock (Some v)).
  - simplify_eq. weigh Hi (@Idle A).
  - simplify_eq. weigh Hi (@IReturn A (match q s with [] => true | _ => false end)).
  - simplify_eq. weigh Hi (@Idle A).
Qed.

(** Only a call of is_empty reads the queue without the mutex. *)
Lemma reading n s h : reach (nonblocking_step cap) n s h ->
  forall i, threads s !! i = Some IRead -> Call i IsEmpty ∈ h.
Proof.
  induction 1 as [|s h i a s' e Hr IH Hs]; intros j Hj.
  - by apply lookup_replicate in Hj as [? _].
  - unfold nonblocking_step, acquire in Hs. repeat case_match; simplify_eq; simpl in Hj;
      apply thread_update in Hj as [(-> & Hj & _)|(_ & Hj)]; try (apply elem_of_app; left; by apply IH);
      try (apply elem_of_app; right; by apply elem_of_list_singleton); repeat case_match; done.
Qed.

Definition nonblocking_pc p : Prop :=
  match p with ENotify | DLock | DTest | DWait | DWaiting | DFront | DPop _ | DUnlock _ => False | _ => True end.
Lemma nonblocking_pcs n s h : reach (nonblocking_step cap) n s h -> forall i p, threads s !! i = Some p -> nonblocking_pc p.
Proof.
  induction 1 as [|s h i a s' e Hr IH Hs]; intros j pj Hj.
  - apply lookup_replicate in Hj as [-> _]. done.
  - unfold nonblocking_step, acquire in Hs. repeat case_match; simplify_eq; simpl in Hj;
      repeat (apply thread_update in Hj as [(-> & -> & _)|(_ & Hj)]; [repeat case_match; done|]); by eapply IH.
Qed.
Lemma nonblocking_stuck n s h : reach (nonblocking_step cap) n s h ->
  (forall i, nonblocking_step cap i Go s = None) -> forall i p, threads s !! i = Some p -> p = Idle.
Proof.
  intros Hr Hstuck i p Hi. pose proof (nonblocking_reach n s h Hr) as [[H1 H2] Hl _].
  pose proof (nonblocking_pcs n s h Hr) as Hpc. destruct (owner s) as [j|] eqn:Ho.
  - exfalso. destruct (lookup_lt_is_Some_2 (threads s) j) as [pj Hj]; [by apply H2|].
    pose proof (H1 j pj Hj) as Hh. rewrite bool_decide_true in Hh by done.
    pose proof (Hpc j pj Hj) as Hb. pose proof (Hl j pj Hj) as Hk.
    pose proof (Hstuck j) as G. unfold nonblocking_step in G. rewrite Hj in G.
    destruct pj; try done; simpl in *.
    + destruct (q s); done.
    + destruct Hk as [l Eq]. by rewrite Eq in G.
  - pose proof (H1 i p Hi) as Hh. pose proof (Hpc i p Hi) as Hb.
    pose proof (Hstuck i) as G. unfold nonblocking_step, acquire in G. rewrite Hi, Ho in G.
    destruct p; try done; auto.
Qed.
End proofs.

(** ** Consequences of the sequential specification *)
Section fifo.
Context {A : Type}.
Implicit Types (ops : list (qcall A * qret A)).

Lemma fifo_conserves (l l' : list A) ops : executes (queue_spec None) l ops l' -> l ++ put_in ops = taken_out ops ++ l'.
Proof.
  revert l. induction ops as [|[o r] ops IH]; intros l; [intros ->; csimpl; by rewrite app_nil_r|].
  intros (l1 & H1 & H2). specialize (IH l1 H2). destruct o as [v| | |]; csimpl in *; simplify_eq; csimpl.
  - rewrite <- IH, <- app_assoc. done.
  - destruct l as [|x l]; [done|]. simplify_eq. csimpl. by rewrite IH.
  - destruct l as [|x l]; simplify_eq; csimpl; [done|]. by rewrite IH.
  - done.
Qed.

Lemma sublist_snoc_l (l k : list A) x : sublist l k -> sublist (l ++ [x]) (k ++ [x]).
Proof. intros. by apply sublist_app. Qed.

Lemma bounded_subsequence n (l l' : list A) ops : executes (queue_spec (Some n)) l ops l' ->
  sublist (taken_out ops ++ l') (l ++ put_in ops).
Proof.
  revert l. induction ops as [|[o r] ops IH]; intros l; [intros ->; csimpl; by rewrite app_nil_r|].
  intros (l1 & H1 & H2). specialize (IH l1 H2). destruct o as [v| | |]; csimpl in *; simplify_eq; csimpl.
  - etrans; [exact IH|]. case_decide; rewrite <- app_assoc; simpl; [|done].
    apply sublist_app; [|done]. destruct l; [done|]. by apply sublist_cons.
  - destruct l as [|x l]; [done|]. simplify_eq. csimpl. by apply sublist_skip.
  - destruct l as [|x l]; simplify_eq; csimpl; [done|]. by apply sublist_skip.
  - done.
Qed.

Lemma bounded_departures n (l l' : list A) ops : executes (queue_spec (Some n)) l ops l' ->
  l ++ put_in ops = (departures n l ops).*2 ++ l' /\
  taken_out ops = (filter (fun x => x.1 = true) (departures n l ops)).*2.
Proof.
  revert l. induction ops as [|[o r] ops IH]; intros l; [intros ->; csimpl; by rewrite app_nil_r|].
  intros (l1 & H1 & H2). destruct (IH l1 H2) as [IH1 IH2]. destruct o as [v| | |]; csimpl in *; simplify_eq; csimpl.
  - split.
    + rewrite fmap_app, <- (app_assoc _ _ l'), <- IH1. case_decide; [|by rewrite <- app_assoc].
      destruct l as [|x l]; csimpl; [done|]. by rewrite <- app_assoc.
    + rewrite IH2, filter_app, fmap_app. case_decide; [|done]. by destruct l.
  - destruct l as [|x l]; [done|]. simplify_eq. csimpl.
    rewrite drop_0. by rewrite IH1, IH2.
  - destruct l as [|x l]; simplify_eq; csimpl; [done|].
    rewrite drop_0. by rewrite IH1, IH2.
  - done.
Qed.

Lemma bounded_length n (l l' : list A) ops : 0 < n -> length l <= n -> executes (queue_spec (Some n)) l ops l' -> length l' <= n.
Proof.
  intros Hn. revert l. induction ops as [|[o r] ops IH]; intros l Hl; [by intros ->|].
  intros (l1 & H1 & H2). apply (IH l1); [|done]. destruct o as [v| | |]; csimpl in *; simplify_eq.
  - case_decide; rewrite app_length; simpl; [|lia]. destruct l; simpl in *; lia.
  - destruct l as [|x l]; [done|]. simplify_eq. simpl in *. lia.
  - destruct l as [|x l]; simplify_eq; simpl in *; lia.
  - done.
Qed.
End fifo.

(** ** DoubleBuffer with one consumer *)
Section buffer.
Context {A : Type} (n c : nat).
Notation bstate := (bstate A). Notation bpc := (bpc A). Notation bact := (bact A).
Notation event := (event (bcall A) (qret A)).
Notation ops := (list (bcall A * qret A)).
Implicit Types (s : bstate) (p : bpc) (h : list event).

(** What the steps satisfy; what the read side satisfies when it is swapped; what the write side
    satisfies when it is written; what holds of the operations and the two sides. *)
Context (may : nat -> bact -> bstate -> Prop) (K F : list A -> Prop) (G : ops -> list A * list A -> Prop).
Hypothesis may_consumer : forall i o s, may i (BStart o) s -> (forall v, o <> BEnq v) -> i = c.
Hypothesis may_deq : forall i s, may i (BStart BDeq) s -> buf s (rd s) <> [].
Hypothesis may_swap : forall i s, may i (BStart BSwap) s -> K (buf s (rd s)).
Hypothesis may_push : forall i v s, may i BGo s -> bthreads s !! i = Some (BEPush v) -> F (buf s (wr s)).
Hypothesis G_init : G [] ([], []).
Hypothesis G_enq : forall o r w v, G o (r, w) -> F w -> G (o ++ [(BEnq v, Done)]) (r, push_queue (Some n) w v).
Hypothesis G_swap : forall o r w, G o (r, w) -> K r -> G (o ++ [(BSwap, Done)]) (w, r).
Hypothesis G_deq : forall o r w v, G o (v :: r, w) -> G (o ++ [(BDeq, Got v)]) (r, w).
Hypothesis G_empty : forall o rw b, G o rw -> G (o ++ [(BEmpty, Bool b)]) rw.

Definition bholds p : bool :=
  match p with BEPush _ | BEUnlock | BSTemp | BSWrite _ | BSRead _ | BSUnlock => true | _ => false end.
Definition producer p : bool :=
  match p with BIdle | BELock _ | BEPush _ | BEUnlock => true | _ => false end.
Definition bexcl s : Prop :=
  forall i p, bthreads s !! i = Some p -> bholds p = bool_decide (bowner s = Some i).
Definition roles s : Prop := forall i p, bthreads s !! i = Some p -> i <> c -> producer p = true.

(** The write side: inside swap_buffer the pointer may have moved already. *)
Definition wside s : bool := match bthreads s !! c with Some (BSRead t) => t | _ => wr s end.
Definition abs s : list A * list A := (buf s (rd s), buf s (wside s)).
Definition bknows s : Prop :=
  match bthreads s !! c with
  | Some (BSLock | BSTemp) => K (buf s (rd s))
  | Some (BSWrite t) => K (buf s (rd s)) /\ t = wr s
  | Some (BSRead t) => K (buf s (rd s)) /\ wr s = rd s
  | Some BDPop => buf s (rd s) <> []
  | _ => True
  end /\ wside s = negb (rd s).

Definition bstatus_of p : status :=
  match p with
  | BIdle => Free
  | BELock v | BEPush v => Called (BEnq v)
  | BEUnlock | BSUnlock => Took Done
  | BSLock | BSTemp | BSWrite _ | BSRead _ => Called BSwap
  | BDPop => Called BDeq
  | BDReturn v => Took (Got v)
  | BMRead => Called BEmpty
  | BMReturn b => Took (Bool b)
  end.
Definition btraced s h : Prop :=
  exists tr f, visible tr = h /\ follows (fun _ => Free) tr f /\
    executes (buffer_spec n) ([], []) (points tr) (abs s) /\ G (points tr) (abs s) /\
    forall i p, bthreads s !! i = Some p -> f i = bstatus_of p.

Lemma bvisible_app (tr1 tr2 : list (levent (bcall A) (qret A))) : visible (tr1 ++ tr2) = visible tr1 ++ visible tr2.
Proof. apply omap_app. Qed.
Lemma bpoints_app (tr1 tr2 : list (levent (bcall A) (qret A))) : points (tr1 ++ tr2) = points tr1 ++ points tr2.
Proof. apply omap_app. Qed.

Lemma bthread_update (l : list bpc) i p j p' : <[i := p]> l !! j = Some p' ->
  (j = i /\ p' = p /\ i < length l) \/ (j <> i /\ l !! j = Some p').
Proof.
  intros H. destruct (decide (j = i)) as [->|Hne].
  - apply list_lookup_insert_Some in H as [(? & <- & ?)|(? & ?)]; [by left|done].
  - rewrite list_lookup_insert_ne in H by done. by right.
Qed.

Lemma btraced_silent s h i p p' s' : btraced s h -> bthreads s !! i = Some p ->
  bthreads s' = <[i := p']> (bthreads s) -> bstatus_of p' = bstatus_of p -> abs s' = abs s -> btraced s' h.
Proof.
  intros (tr & f & H1 & H2 & H3 & H5 & H4) Hi Ht Hp Hq. exists tr, f. rewrite Hq. split_and!; [done..|].
  intros j pj Hj. rewrite Ht in Hj. apply bthread_update in Hj as [(-> & -> & _)|(Hne & Hj)]; [|by apply H4].
  rewrite Hp. by apply H4.
Qed.
Lemma btraced_call s h i p' s' o : btraced s h -> bthreads s !! i = Some BIdle ->
  bthreads s' = <[i := p']> (bthreads s) -> bstatus_of p' = Called o -> abs s' = abs s -> btraced s' (h ++ [Call i o]).
Proof.
  intros (tr & f & H1 & H2 & H3 & H5 & H4) Hi Ht Hp Hq. exists (tr ++ [Vis (Call i o)]), (set_status f i (Called o)).
  rewrite Hq, bvisible_app, bpoints_app, H1. simpl. rewrite app_nil_r. split_and!; [done| |done|done|].
  - apply follows_call; [done|]. by apply (H4 i BIdle).
  - intros j pj Hj. rewrite Ht in Hj. unfold set_status.
    apply bthread_update in Hj as [(-> & -> & _)|(Hne & Hj)]; [by rewrite decide_True|].
    rewrite decide_False by done. by apply H4.
Qed.
Lemma btraced_ret s h i p s' r : btraced s h -> bthreads s !! i = Some p ->
  bthreads s' = <[i := BIdle]> (bthreads s) -> bstatus_of p = Took r -> abs s' = abs s -> btraced s' (h ++ [Ret i r]).
Proof.
  intros (tr & f & H1 & H2 & H3 & H5 & H4) Hi Ht Hp Hq. exists (tr ++ [Vis (Ret i r)]), (set_status f i Free).
  rewrite Hq, bvisible_app, bpoints_app, H1. simpl. rewrite app_nil_r. split_and!; [done| |done|done|].
  - apply follows_ret; [done|]. rewrite <- Hp. by apply H4.
  - intros j pj Hj. rewrite Ht in Hj. unfold set_status.
    apply bthread_update in Hj as [(-> & -> & _)|(Hne & Hj)]; [by rewrite decide_True|].
    rewrite decide_False by done. by apply H4.
Qed.
Lemma btraced_lin s h i p p' s' o r : btraced s h -> bthreads s !! i = Some p ->
  bthreads s' = <[i := p']> (bthreads s) -> bstatus_of p = Called o -> bstatus_of p' = Took r ->
  buffer_spec n o (abs s) = Some (abs s', r) ->
  (forall l, G l (abs s) -> G (l ++ [(o, r)]) (abs s')) -> btraced s' h.
Proof.
  intros (tr & f & H1 & H2 & H3 & H5 & H4) Hi Ht Hp Hp' Hq HG. exists (tr ++ [Lin i o r]), (set_status f i (Took r)).
  rewrite bvisible_app, bpoints_app, H1. simpl. rewrite app_nil_r. split_and!; [done| | |by apply HG|].
  - apply follows_lin; [done|]. rewrite <- Hp. by apply H4.
  - by eapply executes_snoc.
  - intros j pj Hj. rewrite Ht in Hj. unfold set_status.
    apply bthread_update in Hj as [(-> & -> & _)|(Hne & Hj)]; [by rewrite decide_True|].
    rewrite decide_False by done. by apply H4.
Qed.

Lemma bexcl_keep s i p p' s' : bexcl s -> bthreads s !! i = Some p -> bthreads s' = <[i := p']> (bthreads s) ->
  bholds p' = bholds p -> bowner s' = bowner s -> bexcl s'.
Proof.
  intros H1 Hi Ht Hp Ho j pj Hj. rewrite Ht in Hj. rewrite Ho.
  apply bthread_update in Hj as [(-> & -> & _)|(Hne & Hj)]; [|by apply H1]. rewrite Hp. by apply H1.
Qed.
Lemma bexcl_take s i p p' s' : bexcl s -> bthreads s !! i = Some p -> bthreads s' = <[i := p']> (bthreads s) ->
  bowner s = None -> bholds p' = true -> bowner s' = Some i -> bexcl s'.
Proof.
  intros H1 Hi Ht Hn Hp Ho j pj Hj. rewrite Ht in Hj. rewrite Ho.
  apply bthread_update in Hj as [(-> & -> & _)|(Hne & Hj)]; [by rewrite bool_decide_true|].
  rewrite (H1 j pj Hj), Hn. rewrite !bool_decide_false; congruence.
Qed.
Lemma bexcl_release s i p p' s' : bexcl s -> bthreads s !! i = Some p -> bthreads s' = <[i := p']> (bthreads s) ->
  bholds p = true -> bholds p' = false -> bowner s' = None -> bexcl s'.
Proof.
  intros H1 Hi Ht Hp Hp' Ho j pj Hj. pose proof (H1 i p Hi) as Hoi. rewrite Hp in Hoi. symmetry in Hoi.
  apply bool_decide_eq_true in Hoi. rewrite Ht in Hj. rewrite Ho.
  apply bthread_update in Hj as [(-> & -> & _)|(Hne & Hj)]; [by rewrite bool_decide_false|].
  rewrite (H1 j pj Hj), Hoi. rewrite !bool_decide_false; congruence.
Qed.
Lemma bexcl_two s i j p p' : bexcl s -> bthreads s !! i = Some p -> bthreads s !! j = Some p' ->
  bholds p = true -> bholds p' = true -> i = j.
Proof.
  intros H Hi Hj Hp Hp'. rewrite (H _ _ Hi) in Hp. rewrite (H _ _ Hj) in Hp'.
  apply bool_decide_eq_true in Hp, Hp'. congruence.
Qed.
Lemma roles_step s i p' s' : roles s -> bthreads s' = <[i := p']> (bthreads s) -> (i <> c -> producer p' = true) -> roles s'.
Proof.
  intros H Ht Hp j pj Hj Hne. rewrite Ht in Hj. apply bthread_update in Hj as [(-> & -> & _)|(Hn & Hj)]; [auto|eauto].
Qed.

Record binv s h : Prop := { binv_excl : bexcl s; binv_roles : roles s; binv_knows : bknows s; binv_traced : btraced s h }.

Lemma binit_inv k : binv (binit k) [].
Proof using G_init.
  assert (forall i p, bthreads (binit k) !! i = Some p -> p = @BIdle A) as Hall.
  { intros i p Hi. by apply lookup_replicate in Hi as [-> _]. }
  assert (wside (binit k) = true) as Hw.
  { unfold wside. destruct (bthreads (binit k) !! c) as [p|] eqn:E; [|done]. by rewrite (Hall _ _ E). }
  split.
  - intros i p Hi. by rewrite (Hall i p Hi).
  - intros i p Hi _. by rewrite (Hall i p Hi).
  - unfold bknows. rewrite Hw. split; [|done].
    destruct (bthreads (binit k) !! c) as [p|] eqn:E; [|done]. by rewrite (Hall _ _ E).
  - exists [], (fun _ => Free). unfold abs. rewrite Hw. simpl. split_and!; [done|constructor|done|done|].
    intros i p Hi. by rewrite (Hall i p Hi).
Qed.

(** A step of a producer. *)
Lemma other_thread s s' i p' : i <> c -> bthreads s' = <[i := p']> (bthreads s) -> bthreads s' !! c = bthreads s !! c.
Proof. intros Hne ->. by rewrite list_lookup_insert_ne. Qed.
Lemma this_thread s s' p p' : bthreads s !! c = Some p -> bthreads s' = <[c := p']> (bthreads s) -> bthreads s' !! c = Some p'.
Proof. intros Hc ->. apply list_lookup_insert. by eapply lookup_lt_Some. Qed.

(** Steps that leave the buffers and the pointers alone. *)
Lemma same_abs s s' i p p' : bthreads s !! i = Some p -> bthreads s' = <[i := p']> (bthreads s) ->
  (forall t, p <> BSRead t) -> (forall t, p' <> BSRead t) ->
  buf s' = buf s -> rd s' = rd s -> wr s' = wr s -> wside s' = wside s /\ abs s' = abs s.
Proof.
  intros Hi Ht Hp Hp' Hb Hr Hw. assert (wside s' = wside s) as E.
  { unfold wside. destruct (decide (i = c)) as [->|Hne].
    - rewrite (this_thread s s' p p' Hi Ht), Hi, Hw. destruct p, p'; try done; solve [by edestruct Hp|by edestruct Hp'].
    - rewrite (other_thread s s' i p' Hne Ht), Hw. done. }
  split; [done|]. unfold abs. by rewrite E, Hb, Hr.
Qed.
Lemma same_knows s s' i p p' : bknows s -> bthreads s !! i = Some p -> bthreads s' = <[i := p']> (bthreads s) ->
  (forall t, p <> BSRead t) -> (forall t, p' <> BSRead t) ->
  buf s' = buf s -> rd s' = rd s -> wr s' = wr s ->
  (i = c -> match p' with BSLock | BSTemp => K (buf s (rd s)) | BSWrite t => K (buf s (rd s)) /\ t = wr s
     | BDPop => buf s (rd s) <> [] | _ => True end) -> bknows s'.
Proof.
  intros [Hk Hk2] Hi Ht Hp Hp' Hb Hr Hw Hnew. destruct (same_abs s s' i p p') as [E _]; try done.
  unfold bknows. rewrite E, Hr, Hb, Hw. split; [|done]. destruct (decide (i = c)) as [->|Hne].
  - rewrite (this_thread s s' p p' Hi Ht). specialize (Hnew eq_refl). destruct p'; try done. by edestruct Hp'.
  - by rewrite (other_thread s s' i p' Hne Ht).
Qed.

Lemma buffer_inv s h i a s' e : binv s h -> may i a s -> buffer_step n i a s = Some (Ok (s', e)) -> binv s' (h ++ e).
Proof using may_consumer may_deq may_swap may_push G_enq G_swap G_deq G_empty.
  intros [He Hro Hk Htr] Hm Hs. unfold buffer_step in Hs. destruct (bthreads s !! i) as [p|] eqn:Hi; [|done].
  assert (forall p' s1 e1, bacquire i p' s = Some (Ok (s1, e1)) -> bholds p' = true -> bholds p = false ->
     (i <> c -> producer p' = true) -> bstatus_of p' = bstatus_of p -> (forall t, p' <> BSRead t) ->
     (i = c -> match p' with BSLock | BSTemp => K (buf s (rd s)) | BSWrite t => K (buf s (rd s)) /\ t = wr s
        | BDPop => buf s (rd s) <> [] | _ => True end) ->
     binv s1 (h ++ e1)) as Hacq.
  { intros p' s1 e1 Ha Hh Hhp Hkp Hst Hn1 Hnew. unfold bacquire in Ha. destruct (bowner s) eqn:Ho; [done|]. simplify_eq.
    assert (forall t, p <> BSRead t) by (intros t ->; done). rewrite app_nil_r. split.
    - eapply bexcl_take; [exact He|exact Hi|reflexivity|done|exact Hh|reflexivity].
    - eapply roles_step; [exact Hro|reflexivity|exact Hkp].
    - eapply same_knows; [exact Hk|exact Hi|reflexivity|done..].
    - eapply btraced_silent; [exact Htr|exact Hi|reflexivity|exact Hst|].
      eapply same_abs; [exact Hi|reflexivity|done..]. }
  assert (forall p', (forall t, p <> BSRead t) -> (forall t, p' <> BSRead t) -> bholds p' = bholds p ->
     (i <> c -> producer p' = true) -> bstatus_of p' = bstatus_of p ->
     (i = c -> match p' with BSLock | BSTemp => K (buf s (rd s)) | BSWrite t => K (buf s (rd s)) /\ t = wr s
        | BDPop => buf s (rd s) <> [] | _ => True end) -> binv (bgoto i p' s) (h ++ [])) as Hsilent.
  { intros p' Hn1 Hn2 Hh Hr Hst Hnew. rewrite app_nil_r. split.
    - eapply bexcl_keep; [exact He|exact Hi|reflexivity|done|reflexivity].
    - eapply roles_step; [exact Hro|reflexivity|done].
    - eapply same_knows; [exact Hk|exact Hi|reflexivity|done..].
    - eapply btraced_silent; [exact Htr|exact Hi|reflexivity|exact Hst|].
      eapply same_abs; [exact Hi|reflexivity|done..]. }
  assert (forall r, (p = BEUnlock \/ p = BSUnlock) -> bstatus_of p = Took r ->
     binv (bgoto i BIdle (brelease s)) (h ++ [Ret i r])) as Hunlock.
  { intros r Hp Hst. assert (forall t, p <> BSRead t) by (intros t ->; by destruct Hp). split.
    - eapply bexcl_release; [exact He|exact Hi|reflexivity|by destruct Hp as [-> | ->]|reflexivity|reflexivity].
    - eapply roles_step; [exact Hro|reflexivity|done].
    - eapply same_knows; [exact Hk|exact Hi|reflexivity|done..].
    - eapply btraced_ret; [exact Htr|exact Hi|reflexivity|exact Hst|].
      eapply same_abs; [exact Hi|reflexivity|done..]. }
  assert (forall r, (forall t, p <> BSRead t) -> bholds p = false -> bstatus_of p = Took r ->
     binv (bgoto i BIdle s) (h ++ [Ret i r])) as Hret.
  { intros r Hn1 Hh Hst. split.
    - eapply bexcl_keep; [exact He|exact Hi|reflexivity|done|reflexivity].
    - eapply roles_step; [exact Hro|reflexivity|done].
    - eapply same_knows; [exact Hk|exact Hi|reflexivity|done..].
    - eapply btraced_ret; [exact Htr|exact Hi|reflexivity|exact Hst|].
      eapply same_abs; [exact Hi|reflexivity|done..]. }
  assert (i <> c -> producer p = true) as Hro1 by (intros; by eapply Hro).
  destruct p as [|v|v| | | |t|t| | |v| |b], a as [o|]; try done.
  - (* call *)
    simplify_eq.
    set (p' := match o with BEnq v => BELock v | BSwap => BSLock | BDeq => BDPop | BEmpty => BMRead end).
    assert (forall t, p' <> BSRead t) by (by destruct o). assert (bholds p' = false) by (by destruct o). split.
    + eapply bexcl_keep; [exact He|exact Hi|reflexivity|done|reflexivity].
    + eapply roles_step; [exact Hro|reflexivity|]. intros Hne. destruct o; try done; destruct Hne; eapply may_consumer; done.
    + eapply same_knows; [exact Hk|exact Hi|reflexivity|done..|]. intros _. destruct o; simpl; eauto.
    + eapply btraced_call; [exact Htr|exact Hi|reflexivity|by destruct o|].
      eapply same_abs; [exact Hi|reflexivity|done..].
  - by eapply Hacq.
  - (* push *)
    simplify_eq. rewrite app_nil_r. destruct Hk as [Hk1 Hk2]. pose proof (may_push _ _ _ Hm Hi) as HF.
    assert (forall t, bthreads s !! c <> Some (BSRead t)) as Hns.
    { intros t Hc. assert (i = c) by (by eapply (bexcl_two s i c)). simplify_eq. }
    assert (wside s = wr s) as Hws.
    { unfold wside. destruct (bthreads s !! c) as [[]|] eqn:E; try done. by edestruct Hns. }
    rewrite Hws in Hk2.
    match goal with |- binv ?x _ => set (s1 := x) end.
    assert (buf s1 (rd s) = buf s (rd s)) as Hb1.
    { simpl. rewrite Hk2. by destruct (rd s). }
    assert (buf s1 (wr s) = push_back (Some n) (buf s (wr s)) v) as Hb2.
    { simpl. by rewrite eqb_reflx. }
    assert (wside s1 = wr s) as Hws1.
    { unfold wside. destruct (decide (i = c)) as [->|Hne].
      - rewrite (this_thread s s1 (BEPush v) BEUnlock); done.
      - rewrite (other_thread s s1 i BEUnlock) by done. destruct (bthreads s !! c) as [[]|] eqn:E; try done. by edestruct Hns. }
    split.
    + eapply bexcl_keep; [exact He|exact Hi|reflexivity|done|reflexivity].
    + eapply roles_step; [exact Hro|reflexivity|done].
    + unfold bknows. rewrite Hws1. change (rd s1) with (rd s). rewrite Hb1. split; [|done]. change (wr s1) with (wr s).
      destruct (decide (i = c)) as [->|Hne].
      * rewrite (this_thread s s1 (BEPush v) BEUnlock); done.
      * by rewrite (other_thread s s1 i BEUnlock).
    + eapply btraced_lin; [exact Htr|exact Hi|reflexivity|reflexivity|reflexivity| |].
      * unfold abs. rewrite Hws, Hws1. change (rd s1) with (rd s). rewrite Hb1, Hb2. done.
      * intros l. unfold abs. rewrite Hws, Hws1. change (rd s1) with (rd s). rewrite Hb1, Hb2. intros Hl. by apply G_enq.
  - simplify_eq. apply Hunlock; [by left|done].
  - (* swap: lock *)
    assert (i = c) as -> by (destruct (decide (i = c)); [done|by specialize (Hro1 n0)]).
    eapply Hacq; [exact Hs|done..|]. intros _. destruct Hk as [Hk _]. by rewrite Hi in Hk.
  - (* swap: temp *)
    assert (i = c) as -> by (destruct (decide (i = c)); [done|by specialize (Hro1 n0)]).
    simplify_eq. apply Hsilent; [done..|]. intros _. destruct Hk as [Hk _]. by rewrite Hi in Hk.
  - (* swap: write pointer *)
    assert (i = c) as -> by (destruct (decide (i = c)); [done|by specialize (Hro1 n0)]).
    simplify_eq. rewrite app_nil_r. destruct Hk as [Hk1 Hk2]. rewrite Hi in Hk1. destruct Hk1 as [Hk1 ->].
    match goal with |- binv ?x _ => set (s1 := x) end.
    assert (wside s1 = wside s) as Hws.
    { unfold wside. rewrite (this_thread s s1 (BSWrite (wr s)) (BSRead (wr s))) by done. by rewrite Hi. }
    assert (abs s1 = abs s) as Ha. { unfold abs. rewrite Hws. done. }
    split.
    + eapply bexcl_keep; [exact He|exact Hi|reflexivity|done|reflexivity].
    + eapply roles_step; [exact Hro|reflexivity|done].
    + unfold bknows. rewrite Hws. rewrite (this_thread s s1 (BSWrite (wr s)) (BSRead (wr s))) by done. done.
    + eapply btraced_silent; [exact Htr|exact Hi|reflexivity|done|done].
  - (* swap: read pointer *)
    assert (i = c) as -> by (destruct (decide (i = c)); [done|by specialize (Hro1 n0)]).
    simplify_eq. rewrite app_nil_r. destruct Hk as [Hk1 Hk2]. rewrite Hi in Hk1. destruct Hk1 as [Hk1 Hk3].
    match goal with |- binv ?x _ => set (s1 := x) end.
    assert (wside s = t) as Hws by (unfold wside; by rewrite Hi).
    assert (wside s1 = rd s) as Hws1.
    { unfold wside. by rewrite (this_thread s s1 (BSRead t) BSUnlock). }
    rewrite Hws in Hk2. split.
    + eapply bexcl_keep; [exact He|exact Hi|reflexivity|done|reflexivity].
    + eapply roles_step; [exact Hro|reflexivity|done].
    + unfold bknows. rewrite Hws1. rewrite (this_thread s s1 (BSRead t) BSUnlock) by done. split; [done|].
      simpl. rewrite Hk2. by rewrite negb_involutive.
    + eapply btraced_lin; [exact Htr|exact Hi|reflexivity|reflexivity|reflexivity| |].
      * unfold abs. rewrite Hws, Hws1. done.
      * intros l. unfold abs. rewrite Hws, Hws1. intros Hl. by apply G_swap.
  - simplify_eq. apply Hunlock; [by right|done].
  - (* dequeue *)
    assert (i = c) as -> by (destruct (decide (i = c)); [done|by specialize (Hro1 n0)]).
    destruct Hk as [Hk1 Hk2]. rewrite Hi in Hk1. destruct (buf s (rd s)) as [|x l] eqn:Eb; [done|]. simplify_eq.
    rewrite app_nil_r. match goal with |- binv ?x _ => set (s1 := x) end.
    assert (wside s = wr s) as Hws by (unfold wside; by rewrite Hi).
    assert (wside s1 = wr s) as Hws1 by (unfold wside; by rewrite (this_thread s s1 BDPop (BDReturn x))).
    rewrite Hws in Hk2.
    assert (buf s1 (rd s) = l) as Hb1 by (simpl; by rewrite eqb_reflx).
    assert (buf s1 (wr s) = buf s (wr s)) as Hb2 by (simpl; rewrite Hk2; by destruct (rd s)).
    split.
    + eapply bexcl_keep; [exact He|exact Hi|reflexivity|done|reflexivity].
    + eapply roles_step; [exact Hro|reflexivity|done].
    + unfold bknows. rewrite Hws1. rewrite (this_thread s s1 BDPop (BDReturn x)) by done. done.
    + eapply btraced_lin; [exact Htr|exact Hi|reflexivity|reflexivity|reflexivity| |].
      * unfold abs. rewrite Hws, Hws1. change (rd s1) with (rd s). rewrite Hb1, Hb2, Eb. done.
      * intros o. unfold abs. rewrite Hws, Hws1. change (rd s1) with (rd s). rewrite Hb1, Hb2, Eb. apply G_deq.
  - simplify_eq. by apply Hret.
  - (* empty *)
    assert (i = c) as -> by (destruct (decide (i = c)); [done|by specialize (Hro1 n0)]).
    simplify_eq. rewrite app_nil_r. match goal with |- binv ?x _ => set (s1 := x) end.
    destruct (same_abs s s1 c BMRead (BMReturn (match buf s (rd s) with [] => true | _ => false end))) as [E1 E2]; try done.
    split.
    + eapply bexcl_keep; [exact He|exact Hi|reflexivity|done|reflexivity].
    + eapply roles_step; [exact Hro|reflexivity|done].
    + eapply same_knows; [exact Hk|exact Hi|reflexivity|done..].
    + eapply btraced_lin; [exact Htr|exact Hi|reflexivity|reflexivity|reflexivity| |].
      * rewrite E2. unfold abs. done.
      * intros l. rewrite E2. apply G_empty.
  - simplify_eq. by apply Hret.
Qed.

Lemma buffer_reach k s h : breach n may k s h -> binv s h.
Proof using All. induction 1; [apply binit_inv|by eapply buffer_inv]. Qed.

Lemma buffer_safe s h i a x : binv s h -> buffer_step n i a s <> Some (UB x).
Proof using Type.
  intros [He Hro Hk Htr] Hs. unfold buffer_step, bacquire in Hs. destruct (bthreads s !! i) as [p|] eqn:Hi; [|done].
  destruct p as [|v|v| | | |t|t| | |v| |b], a as [o|]; try done; try by destruct (bowner s).
  assert (i = c) as ->. { destruct (decide (i = c)); [done|]. by pose proof (Hro _ _ Hi n0). }
  destruct Hk as [Hk _]. rewrite Hi in Hk. by destruct (buf s (rd s)).
Qed.

Lemma buffer_no_race s h : binv s h -> ~ brace s.
Proof using Type.
  intros [He Hro Hk Htr] (i & j & p & p' & l & a & Hne & Hi & Hj & Hl & Hl').
  assert (producer p = false -> i = c) as Hp.
  { intros Hp. destruct (decide (i = c)); [done|]. by rewrite (Hro _ _ Hi) in Hp. }
  assert (producer p' = false -> j = c) as Hp'.
  { intros Hp'. destruct (decide (j = c)); [done|]. by rewrite (Hro _ _ Hj) in Hp'. }
  assert (bholds p = true -> bholds p' = true -> False) as Hx.
  { intros ? ?. apply Hne. by eapply bexcl_two. }
  destruct Hk as [Hk1 Hk2]. unfold wside in Hk2.
  assert (producer p = false -> producer p' = false -> False) as Hy.
  { intros ? ?. apply Hne. by rewrite Hp, Hp'. }
  destruct p; simpl in Hl; try (by apply elem_of_nil in Hl);
    destruct p'; simpl in Hl'; try (by apply elem_of_nil in Hl');
    try (by destruct Hx); try (by destruct Hy);
    rewrite ?elem_of_cons, ?elem_of_nil in Hl, Hl';
    first [assert (j = c) as -> by (by apply Hp') | assert (i = c) as -> by (by apply Hp)];
    rewrite ?Hi, ?Hj in Hk2; destruct_or?; simplify_eq; rewrite Hk2 in *; destruct (rd s); done.
Qed.
End buffer.

(** Runs of the buffer, for examples. *)
Fixpoint brun {A} (n : nat) (acts : list (nat * bact A)) (s : bstate A) : option (bstate A * list (event (bcall A) (qret A))) :=
  match acts with
  | [] => Some (s, [])
  | (i, a) :: acts =>
      match buffer_step n i a s with
      | Some (Ok (s1, e)) => match brun n acts s1 with Some (s2, e') => Some (s2, e ++ e') | None => None end
      | _ => None
      end
  end.
Fixpoint brun_may {A} (n : nat) (may : nat -> bact A -> bstate A -> Prop) (acts : list (nat * bact A)) (s : bstate A) : Prop :=
  match acts with
  | [] => True
  | (i, a) :: acts =>
      may i a s /\ match buffer_step n i a s with Some (Ok (s1, _)) => brun_may n may acts s1 | _ => False end
  end.
Lemma brun_reach {A} n k may (acts : list (nat * bact A)) s h s' h' :
  breach n may k s h -> brun_may n may acts s -> brun n acts s = Some (s', h') -> breach n may k s' (h ++ h').
Proof.
  revert s h h'. induction acts as [|[i a] acts IH]; intros s h h' Hr Hm Hs; simpl in Hs, Hm; simplify_eq.
  - by rewrite app_nil_r.
  - destruct (buffer_step n i a s) as [[[s1 e]| | |]|] eqn:E; try done.
    destruct (brun n acts s1) as [[s2 e']|] eqn:E2; try done. simplify_eq. rewrite app_assoc.
    destruct Hm as [Hm1 Hm2]. eapply IH; [|done|done]. by econstructor.
Qed.
(** Runs of the queues, for examples. *)
Fixpoint qrun {A} (step : nat -> act A -> state A -> option (res (state A * list (event (qcall A) (qret A)))))
  (acts : list (nat * act A)) (s : state A) : option (state A * list (event (qcall A) (qret A))) :=
  match acts with
  | [] => Some (s, [])
  | (i, a) :: acts =>
      match step i a s with
      | Some (Ok (s1, e)) => match qrun step acts s1 with Some (s2, e') => Some (s2, e ++ e') | None => None end
      | _ => None
      end
  end.
Lemma qrun_reach {A} step n (acts : list (nat * act A)) s h s' h' :
  reach step n s h -> qrun step acts s = Some (s', h') -> reach step n s' (h ++ h').
Proof.
  revert s h h'. induction acts as [|[i a] acts IH]; intros s h h' Hr Hs; simpl in Hs; simplify_eq.
  - by rewrite app_nil_r.
  - destruct (step i a s) as [[[s1 e]| | |]|] eqn:E; try done.
    destruct (qrun step acts s1) as [[s2 e']|] eqn:E2; try done. simplify_eq. rewrite app_assoc.
    eapply IH; [|done]. by econstructor.
Qed.
