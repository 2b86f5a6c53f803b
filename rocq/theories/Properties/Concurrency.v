(** Concurrent queues (concurrency.hpp): properties C67-C73, C104, C105.

    The threads are any number [n] of threads that start any operations at any time; [reach] ranges
    over all schedules, including spurious wake-ups. *)
From Verif Require Import Base.Cpp Spec.ConcurrencySpec Model.Concurrency Proofs.ConcurrencyProofs.

(** ** C67: BlockingQ delivers every element once, in order *)

(** Every history is one of a sequential queue whose operations take effect between their call and
    their return; what was taken out, followed by what is in the queue, is what was put in. Nothing
    is undefined and there is no data race. *)
Theorem C67_blocking_fifo {A} n (s : state A) h :
  reach (blocking_step None) n s h ->
  (exists ops, linearizes (queue_spec None) [] h ops (q s) /\ put_in ops = taken_out ops ++ q s) /\
  (forall i a k, blocking_step None i a s <> Some (UB k)) /\
  ~ race s.
Proof.
  intros Hr. pose proof (blocking_reach None n s h Hr) as Hi. pose proof Hi as [He _ (tr & f & H1 & H2 & H3 & H4) _].
  split_and!.
  - exists (points tr). split; [by exists tr, f|]. by apply fifo_conserves in H3.
  - intros i a k. by eapply blocking_safe.
  - apply excl_race; [done|]. intros i Hc. by pose proof (blocking_pcs None n s h Hr i _ Hc).
Qed.
Print Assumptions C67_blocking_fifo.

(** A consumer blocks, a producer wakes it up, another consumer overtakes it. *)
Example C67_example :
  let acts := [(0, Start Deq); (0, Go); (0, Go); (0, Go); (1, Start (Enq 7)); (1, Go); (1, Go); (1, Wake (Some 0));
    (2, Start Deq); (1, Go); (2, Go); (2, Go); (2, Go); (2, Go); (2, Go); (0, Go); (0, Go); (0, Go)] in
  let h := [Call 0 Deq; Call 1 (Enq 7); Call 2 Deq; Ret 1 Done; Ret 2 (Got 7)] in
  reach (blocking_step None) 3 (State [] None [DWaiting; Idle; Idle]) h.
Proof.
  intros acts h. change h with ([] ++ h). eapply (qrun_reach _ _ acts); [constructor|]. reflexivity.
Qed.

(** ** C68: no missed wake-up *)

(** If no call in progress can take a step then every thread is in no call or waits in dequeue, and
    if one waits then the queue is empty. *)
Theorem C68_no_missed_wakeup {A} cap n (s : state A) h :
  reach (blocking_step cap) n s h ->
  (forall i a, internal a -> blocking_step cap i a s = None) ->
  (forall i p, threads s !! i = Some p -> p = Idle \/ p = DWaiting) /\
  ((exists i, threads s !! i = Some DWaiting) -> q s = []).
Proof. apply blocking_stuck. Qed.
Print Assumptions C68_no_missed_wakeup.

(** The calls in progress cannot go on for ever: they reach such a state. *)
Theorem C68_progress {A} cap n (s : state A) h :
  reach (blocking_step cap) n s h ->
  exists bound, forall k s', runs (blocking_step cap) k s s' ->
    k <= bound /\ exists h', reach (blocking_step cap) n s' (h ++ h').
Proof.
  intros Hr. exists (total weight (threads s)). intros k s' Hk. split.
  - pose proof (runs_bound (blocking_step cap) k s s') as B. feed specialize B; [|done|lia].
    intros ? ? ? ? ?. apply blocking_weight.
  - by eapply runs_reach.
Qed.
Print Assumptions C68_progress.

Example C68_example : forall v : nat,
  let s := @State nat [] None [DWaiting; Idle] in
  reach (blocking_step None) 2 s [Call 0 Deq] /\
  (forall i a, internal a -> blocking_step None i a s = None) /\
  exists s', reach (blocking_step None) 2 s' [Call 0 Deq; Call 1 (Enq v)] /\ q s' = [v] /\
    ~ (forall i a, internal a -> blocking_step None i a s' = None).
Proof.
  intros v s. split_and!.
  - change [Call 0 Deq] with ([] ++ [@Call (qcall nat) (qret nat) 0 Deq]).
    eapply (qrun_reach _ _ [(0, Start Deq); (0, Go); (0, Go); (0, Go)]); [constructor|]. reflexivity.
  - intros i a Ha. unfold blocking_step. destruct i as [|[|i]]; simpl; destruct a; try done.
  - exists (State [v] (Some 1) [DWaiting; ENotify]). split_and!; [|done|].
    + change [Call 0 Deq; Call 1 (Enq v)] with ([] ++ [@Call (qcall nat) (qret nat) 0 Deq; Call 1 (Enq v)]).
      eapply (qrun_reach _ _ [(0, Start Deq); (0, Go); (0, Go); (0, Go); (1, Start (Enq v)); (1, Go); (1, Go)]);
        [constructor|]. reflexivity.
    + intros H. specialize (H 1 (Wake (Some 0)) I). done.
Qed.

(** ** C69: the bounded BlockingQ *)

(** The operations are those of a queue of capacity [n]; the values put in are those that left, in
    order, then those in the queue; the dequeued values are those that left and were not dropped by
    an enqueue to a full queue. *)
Theorem C69_bounded_blocking {A} cap n (s : state A) h :
  0 < cap -> reach (blocking_step (Some cap)) n s h ->
  (exists ops, linearizes (queue_spec (Some cap)) [] h ops (q s) /\
     put_in ops = (departures cap [] ops).*2 ++ q s /\
     taken_out ops = (filter (fun x => x.1 = true) (departures cap [] ops)).*2 /\
     sublist (taken_out ops) (put_in ops)) /\
  length (q s) <= cap /\
  (forall i a k, blocking_step (Some cap) i a s <> Some (UB k)) /\
  ~ race s.
Proof.
  intros Hn Hr. pose proof (blocking_reach _ n s h Hr) as Hi. pose proof Hi as [He _ (tr & f & H1 & H2 & H3 & H4) _].
  split_and!.
  - exists (points tr). destruct (bounded_departures cap _ _ _ H3) as [B1 B2]. split_and!; [by exists tr, f|done|done|].
    etrans; [|apply (bounded_subsequence cap _ _ _ H3)]. by apply sublist_inserts_r.
  - eapply bounded_length; [exact Hn| |exact H3]. simpl. lia.
  - intros i a k. by eapply blocking_safe.
  - apply excl_race; [done|]. intros i Hc. by pose proof (blocking_pcs _ n s h Hr i _ Hc).
Qed.
Print Assumptions C69_bounded_blocking.

(** Three values through a queue of two: the first is dropped. *)
Example C69_example :
  let enq v := [(0, Start (Enq v)); (0, Go); (0, Go); (0, Wake None); (0, Go)] in
  let acts := enq 1 ++ enq 2 ++ enq 3 ++ [(1, Start Deq); (1, Go); (1, Go); (1, Go); (1, Go); (1, Go)] in
  let h := [Call 0 (Enq 1); Ret 0 Done; Call 0 (Enq 2); Ret 0 Done; Call 0 (Enq 3); Ret 0 Done;
            Call 1 Deq; Ret 1 (Got 2)] in
  reach (blocking_step (Some 2)) 2 (State [3] None [Idle; Idle]) h /\
  departures 2 [] [(Enq 1, Done); (Enq 2, Done); (Enq 3, Done); (Deq, Got 2)] = [(false, 1); (true, 2)].
Proof.
  intros enq acts h. split; [|reflexivity]. change h with ([] ++ h). eapply (qrun_reach _ _ acts); [constructor|]. reflexivity.
Qed.

(** ** C70: NonBlockingQ *)

(** Every history is one of a sequential queue, bounded or not, in which dequeue of an empty queue
    gives nothing; nothing is undefined. The accesses are interleaved: see C71 for races. *)
Theorem C70_nonblocking_linearizable {A} cap n (s : state A) h :
  reach (nonblocking_step cap) n s h ->
  (exists ops, linearizes (queue_spec cap) [] h ops (q s)) /\
  (forall i a k, nonblocking_step cap i a s <> Some (UB k)).
Proof.
  intros Hr. pose proof (nonblocking_reach _ n s h Hr) as Hi. pose proof Hi as [He _ (tr & f & H1 & H2 & H3 & H4)]. split.
  - exists (points tr). by exists tr, f.
  - intros i a k. by eapply nonblocking_safe.
Qed.
Print Assumptions C70_nonblocking_linearizable.

(** Without a capacity nothing is lost and the order is kept. *)
Theorem C70_nonblocking_fifo {A} n (s : state A) h :
  reach (nonblocking_step None) n s h ->
  exists ops, linearizes (queue_spec None) [] h ops (q s) /\ put_in ops = taken_out ops ++ q s.
Proof.
  intros Hr. pose proof (nonblocking_reach _ n s h Hr) as [_ _ (tr & f & H1 & H2 & H3 & H4)].
  exists (points tr). split; [by exists tr, f|]. by apply fifo_conserves in H3.
Qed.
Print Assumptions C70_nonblocking_fifo.

(** No call blocks: calls in progress can take a step until all have returned, and they do after a
    bounded number of steps. *)
Theorem C70_nonblocking_progress {A} cap n (s : state A) h :
  reach (nonblocking_step cap) n s h ->
  ((forall i, nonblocking_step cap i Go s = None) -> forall i p, threads s !! i = Some p -> p = Idle) /\
  exists bound, forall k s', runs (nonblocking_step cap) k s s' -> k <= bound.
Proof.
  intros Hr. split; [by eapply nonblocking_stuck|]. exists (total weight (threads s)). intros k s' Hk.
  pose proof (runs_bound (nonblocking_step cap) k s s') as B. feed specialize B; [|done|lia].
  intros ? ? ? ? ?. apply nonblocking_weight.
Qed.
Print Assumptions C70_nonblocking_progress.

Example C70_example :
  let h := [Call 0 TryDeq; Call 1 (Enq 5); Ret 0 (Maybe None); Ret 1 Done; Call 2 IsEmpty; Call 0 TryDeq;
            Ret 2 (Bool false); Ret 0 (Maybe (Some 5))] in
  reach (nonblocking_step None) 3 (State [] None [Idle; Idle; Idle]) h.
Proof.
  intros h. change h with ([] ++ h).
  eapply (qrun_reach _ _ [(0, Start TryDeq); (1, Start (Enq 5)); (0, Go); (0, Go); (0, Go); (1, Go); (1, Go); (1, Go);
    (2, Start IsEmpty); (0, Start TryDeq); (2, Go); (2, Go); (0, Go); (0, Go); (0, Go); (0, Go); (0, Go)]); [constructor|].
  reflexivity.
Qed.

(** ** C71: is_empty from any thread *)

(** False of the code: is_empty does not take the mutex, so its read races with the write of an
    enqueue, in every queue, for every value. *)
Theorem C71_is_empty_refuted {A} cap (v : A) :
  exists s, reach (nonblocking_step cap) 2 s [Call 0 (Enq v); Call 1 IsEmpty] /\ race s.
Proof.
  exists (State [] (Some 0) [EPush v; IRead]). split.
  - change [Call 0 (Enq v); Call 1 IsEmpty] with ([] ++ [@Call (qcall A) (qret A) 0 (Enq v); Call 1 IsEmpty]).
    eapply (qrun_reach _ _ [(0, Start (Enq v)); (0, Go); (1, Start IsEmpty)]); [constructor|]. reflexivity.
  - exists 0, 1, (EPush v), IRead, Reads. done.
Qed.
Print Assumptions C71_is_empty_refuted.

(** What holds: without calls of is_empty there is no race. *)
Theorem C71_without_is_empty_partial {A} cap n (s : state A) h :
  reach (nonblocking_step cap) n s h -> (forall i, Call i IsEmpty ∉ h) -> ~ race s.
Proof.
  intros Hr Hh. pose proof (nonblocking_reach _ n s h Hr) as [He _ _]. apply excl_race; [done|].
  intros i Hi. apply (Hh i). by eapply reading.
Qed.
Print Assumptions C71_without_is_empty_partial.

Example C71_example :
  reach (nonblocking_step (Some 4)) 2 (State [] (Some 0) [EPush 3; TLock]) [Call 0 (Enq 3); Call 1 TryDeq] /\
  forall i, @Call (qcall nat) (qret nat) i IsEmpty ∉ [Call 0 (Enq 3); Call 1 TryDeq].
Proof.
  split.
  - change [Call 0 (Enq 3); Call 1 TryDeq] with ([] ++ [@Call (qcall nat) (qret nat) 0 (Enq 3); Call 1 TryDeq]).
    eapply (qrun_reach _ _ [(0, Start (Enq 3)); (0, Go); (1, Start TryDeq)]); [constructor|]. reflexivity.
  - intros i Hi. rewrite !elem_of_cons, elem_of_nil in Hi. naive_solver.
Qed.

(** ** C72: DoubleBuffer, order across swaps *)

(** False of the code: one thread enqueues [a] and [b], swaps, dequeues [a], enqueues [c], swaps and
    dequeues: it gets [c], for all values and all capacities of at least 2. *)
Theorem C72_order_across_swaps_refuted {A} cap (a b c : A) :
  2 <= cap ->
  exists s, breach cap (fun _ _ _ => True) 1 s
    [Call 0 (BEnq a); Ret 0 Done; Call 0 (BEnq b); Ret 0 Done; Call 0 BSwap; Ret 0 Done; Call 0 BDeq; Ret 0 (Got a);
     Call 0 (BEnq c); Ret 0 Done; Call 0 BSwap; Ret 0 Done; Call 0 BDeq; Ret 0 (Got c)].
Proof.
  intros Hcap. destruct cap as [|[|cap]]; [lia..|].
  set (enq v := [(0, BStart (BEnq v)); (0, BGo); (0, BGo); (0, @BGo A)]).
  set (swp := [(0, BStart BSwap); (0, BGo); (0, BGo); (0, BGo); (0, BGo); (0, @BGo A)]).
  set (deq := [(0, BStart BDeq); (0, BGo); (0, @BGo A)]).
  destruct (brun (S (S cap)) (enq a ++ enq b ++ swp ++ deq ++ enq c ++ swp ++ deq) (binit 1)) as [[s h]|] eqn:E.
  - exists s. pose proof (fun Hm => brun_reach _ 1 _ _ _ [] _ _ (breach_init _ (fun _ _ _ => True) _) Hm E) as Hr.
    feed specialize Hr; [clear; vm_compute; tauto|].
    vm_compute in E. injection E as <- <-. exact Hr.
  - vm_compute in E. done.
Qed.
Print Assumptions C72_order_across_swaps_refuted.

Example C72_example : 2 <= 16. Proof. lia. Qed.

(** ** C73: DoubleBuffer, drained swaps *)

(** If one thread consumes, swaps only when the read side is empty, and no full buffer is written,
    then what was taken out, followed by the two buffers, is what was put in by all producers. *)
Theorem C73_drained_swaps {A} cap c k (s : bstate A) h :
  breach cap (drained cap c) k s h ->
  exists ops r w, linearizes (buffer_spec cap) ([], []) h ops (r, w) /\
    b_put_in ops = b_taken_out ops ++ r ++ w.
Proof.
  intros Hr.
  assert (binv cap c (fun l => l = []) (fun ops rw => b_put_in ops = b_taken_out ops ++ rw.1 ++ rw.2) s h) as Hi.
  { eapply (buffer_reach cap c (drained cap c) (fun l => l = []) (fun l => length l < cap)); [..|exact Hr].
    - intros i o s0 [Hm _] Ho. destruct o; simpl in Hm; [by destruct (Ho v)|done|tauto|done].
    - intros i s0 [Hm _]. apply Hm.
    - intros i s0 [_ Hm]. exact Hm.
    - intros i v s0 [_ Hm] Hv. by eapply Hm.
    - done.
    - intros o r w v HG HF. unfold b_put_in, b_taken_out in *. rewrite !omap_app, HG. simpl.
      rewrite decide_False by lia. rewrite app_nil_r, <- !app_assoc. done.
    - intros o r w HG ->. unfold b_put_in, b_taken_out in *. rewrite !omap_app, HG. simpl. by rewrite !app_nil_r.
    - intros o r w v HG. unfold b_put_in, b_taken_out in *. rewrite !omap_app, HG. simpl. rewrite app_nil_r, <- !app_assoc. done.
    - intros o [r w] b HG. unfold b_put_in, b_taken_out in *. rewrite !omap_app, HG. simpl. by rewrite !app_nil_r. }
  destruct Hi as [_ _ _ (tr & f & H1 & H2 & H3 & H4 & _)].
  exists (points tr), (buf s (rd s)), (buf s (wside c s)). split; [by exists tr, f|done].
Qed.
Print Assumptions C73_drained_swaps.

(** A producer and a consumer, two rounds. *)
Example C73_example :
  exists s, breach 2 (drained 2 1) 2 s
    [Call 0 (BEnq 4); Ret 0 Done; Call 1 BSwap; Ret 1 Done; Call 1 BDeq; Call 0 (BEnq 5); Ret 1 (Got 4)].
Proof.
  set (acts := [(0, BStart (BEnq 4)); (0, BGo); (0, BGo); (0, BGo); (1, BStart BSwap); (1, BGo); (1, BGo); (1, BGo); (1, BGo);
    (1, BGo); (1, BStart BDeq); (0, BStart (BEnq 5)); (1, BGo); (1, BGo)]).
  destruct (brun 2 acts (binit 2)) as [[s h]|] eqn:E; [|by vm_compute in E]. exists s.
  pose proof (fun Hm => brun_reach 2 2 (drained 2 1) _ _ [] _ _ (breach_init _ _ _) Hm E) as Hr.
  feed specialize Hr; [clear|vm_compute in E; injection E as <- <-; exact Hr].
  vm_compute. repeat split; try done; try lia; intros; simplify_eq; lia.
Qed.

(** ** C104: DoubleBuffer with one consumer *)

(** With any number of producers and one consumer, which dequeues only what is there, every history
    is one of two sequential buffers exchanged by swap_buffer; nothing is undefined and there is no
    data race, although dequeue and empty take no lock. *)
Theorem C104_single_consumer {A} cap c k (s : bstate A) h :
  breach cap (single_consumer c) k s h ->
  (exists ops r w, linearizes (buffer_spec cap) ([], []) h ops (r, w)) /\
  (forall i a x, buffer_step cap i a s <> Some (UB x)) /\
  ~ brace s.
Proof.
  intros Hr. assert (binv cap c (fun _ => True) (fun _ _ => True) s h) as Hi.
  { eapply (buffer_reach cap c (single_consumer c) (fun _ => True) (fun _ => True)); [..|exact Hr]; try done.
    - intros i o s0 Hm Ho. destruct o; simpl in Hm; [by destruct (Ho v)|done|tauto|done].
    - intros i s0 Hm. apply Hm. }
  split_and!.
  - destruct Hi as [_ _ _ (tr & f & H1 & H2 & H3 & H4 & _)].
    exists (points tr), (buf s (rd s)), (buf s (wside c s)). by exists tr, f.
  - intros i a x. by eapply buffer_safe.
  - by eapply buffer_no_race.
Qed.
Print Assumptions C104_single_consumer.

(** A consumer in the middle of swap_buffer while two producers want to enqueue. *)
Example C104_example :
  exists s, breach 2 (single_consumer 1) 3 s [Call 1 BSwap; Call 0 (BEnq 4); Call 2 (BEnq 5)] /\
    bthreads s = [BELock 4; BSRead true; BELock 5].
Proof.
  set (acts := [(1, BStart BSwap); (0, BStart (BEnq 4)); (2, BStart (BEnq 5)); (1, BGo); (1, BGo); (1, BGo)]).
  destruct (brun 2 acts (binit 3)) as [[s h]|] eqn:E; [|by vm_compute in E]. exists s.
  pose proof (fun Hm => brun_reach 2 3 (single_consumer 1) _ _ [] _ _ (breach_init _ _ _) Hm E) as Hr.
  feed specialize Hr; [clear|vm_compute in E; injection E as <- <-; split; [exact Hr|reflexivity]].
  vm_compute. repeat split; done.
Qed.

(** ** C105: DoubleBuffer shared by any threads *)

(** False of the code: a dequeue of a non-empty read side races with swap_buffer in another thread,
    for every value and capacity. *)
Theorem C105_dequeue_races_refuted {A} cap (v : A) :
  0 < cap ->
  exists s, breach cap (fun _ _ _ => True) 2 s
    [Call 0 (BEnq v); Ret 0 Done; Call 0 BSwap; Ret 0 Done; Call 0 BDeq; Call 1 BSwap] /\
    buf s (rd s) = [v] /\ brace s.
Proof.
  intros Hcap. destruct cap as [|cap]; [lia|].
  set (acts := [(0, BStart (BEnq v)); (0, BGo); (0, BGo); (0, BGo); (0, BStart BSwap); (0, BGo); (0, BGo); (0, BGo); (0, BGo);
    (0, BGo); (0, BStart BDeq); (1, BStart BSwap); (1, BGo); (1, BGo); (1, @BGo A)]).
  destruct (brun (S cap) acts (binit 2)) as [[s h]|] eqn:E.
  - exists s. pose proof (fun Hm => brun_reach _ 2 _ _ _ [] _ _ (breach_init _ (fun _ _ _ => True) _) Hm E) as Hr.
    feed specialize Hr; [clear; vm_compute; tauto|].
    vm_compute in E. injection E as <- <-. split_and!; [exact Hr|reflexivity|].
    eexists 1, 0, _, _, ReadPointer, Reads. split_and!; [done|reflexivity|reflexivity|simpl; set_solver|simpl; set_solver].
  - vm_compute in E. done.
Qed.
Print Assumptions C105_dequeue_races_refuted.

Example C105_example : 0 < 8. Proof. lia. Qed.
