(** Cyclic buffers (cyclic.hpp): properties C10-C17 and C82. *)
From Verif Require Import Base.Cpp Base.Mem Model.Cyclic Spec.QueueSpec.
From Verif Require Import Proofs.MemLemmas Proofs.VcbProofs Proofs.VcqProofs.

(** Element types for the examples: a class type whose moved-from value is 0, and int. *)
Definition cls : ety nat := Ety false (fun _ => 0).
Definition int : ety nat := Ety true (fun x => x).

(** C10: after any pushes the window holds the last n values. *)
Theorem C10_vcb_window {A} (E : ety A) (n : nat) (d : A) (vs : list A) (m0 : mem A) :
  0 < n -> exists s m, vcb_after E n d vs m0 s m /\ vcb_reads n s m (last_n n d vs).
Proof.
  intros Hn. destruct (vcb_after_exists E n d vs m0 Hn) as (s & m & H).
  exists s, m. split; [exact H|]. apply vcb_rep_reads. exact (proj1 (vcb_after_rep E n d vs m0 s m Hn H)).
Qed.
Print Assumptions C10_vcb_window.

Example C10_example : last_n 3 0 [7; 8] = [0; 7; 8] /\ last_n 3 0 [5; 6; 7; 8; 9] = [7; 8; 9] /\
  (let* (s, m) := vcb_new cls 3 0 mem0 in
   let* (s, m) := vcb_pushes cls 3 s [5; 6; 7; 8; 9] m in
   vcb_get s 0 m) = Ok 7.
Proof. split_and!; reflexivity. Qed.

(** C10: the model is deterministic, so the above determines every read. *)
Theorem C10_vcb_window_all {A} (E : ety A) (n : nat) (d : A) (vs : list A) (m0 : mem A) s m :
  0 < n -> vcb_after E n d vs m0 s m -> vcb_reads n s m (last_n n d vs).
Proof.
  intros Hn H. apply vcb_rep_reads. exact (proj1 (vcb_after_rep E n d vs m0 s m Hn H)).
Qed.
Print Assumptions C10_vcb_window_all.

(** C11: any history a bounded queue allows runs without undefined behaviour, pops the same
    values, and leaves an object that reads as the same queue. *)
Theorem C11_vcq_bounded_fifo {A} (E : ety A) (n : nat) (ops : list qop) (m0 : mem A) outs xs :
  0 < n -> bounded_queue n [] ops = Some (outs, xs) ->
  (exists q m, vcq_after E n ops m0 outs q m) /\
  (forall outs' q m, vcq_after E n ops m0 outs' q m -> outs' = outs /\ vcq_reads q m xs).
Proof.
  intros Hn Hb. split.
  - exact (vcq_after_exists E n ops m0 outs xs Hn Hb).
  - intros outs' q m H.
    destruct (vcq_after_rep E n ops m0 outs xs outs' q m Hn Hb H) as (-> & Hr & _).
    split; [reflexivity|]. exact (vcq_rep_reads E n m q xs Hr).
Qed.
Print Assumptions C11_vcq_bounded_fifo.

Example C11_example :
  bounded_queue 2 [] [QPush 1; QPush 2; QPush 3; QPop; QPush 4] = Some ([2], [3; 4]).
Proof. reflexivity. Qed.

(** C12: a copy of a queue whose head has moved does not hold the same elements: after
    push 1, push 2, pop, push 3 a Vcq<int,2> reads 2, 3 and its copy reads 3, 2. *)
Theorem C12_vcq_copy_refuted :
  exists (ops : list qop) (xs : list nat) q m q' m',
    bounded_queue 2 [] ops = Some ([1], xs) /\
    vcq_after int 2 ops mem0 [1] q m /\ vcq_reads q m xs /\
    vcq_copy int 2 q m = Ok (q', m') /\ ~ vcq_reads q' m' xs.
Proof.
  exists [QPush 1; QPush 2; QPop; QPush 3], [2; 3].
  exists (Vcq 0 2 1 1), (Mem [Some [Live 3; Live 2; Live 3; Live 2]] 0).
  exists (Vcq 1 2 1 1), (Mem [Some [Live 3; Live 2; Live 3; Live 2]; Some [Live 2; Live 3; Live 2; Live 3]] 0).
  split; [reflexivity|]. split; [exists (Vcq 0 0 0 0), (Mem [Some [Raw; Raw; Raw; Raw]] 0); split; reflexivity|].
  split.
  { split; [reflexivity|]. split; [split; discriminate|].
    intros [|[|i]] x H; cbn in H; try discriminate H; injection H as <-; reflexivity. }
  split; [reflexivity|].
  intros (_ & _ & H). specialize (H 0 2 eq_refl). discriminate H.
Qed.
Print Assumptions C12_vcq_copy_refuted.

(** C12: for a class type the copy reads elements outside their lifetime: after push 1,
    push 2, pop a copy of the one-element queue touches the destroyed first slot. *)
Theorem C12_vcq_copy_dead_refuted :
  exists (ops : list qop) q m,
    bounded_queue 2 [] ops = Some ([1], [2]) /\
    vcq_after cls 2 ops mem0 [1] q m /\ vcq_reads q m [2] /\
    vcq_copy cls 2 q m = UB Uninit.
Proof.
  exists [QPush 1; QPush 2; QPop], (Vcq 0 1 1 0), (Mem [Some [Raw; Live 2; Raw; Live 2]] 0).
  split; [reflexivity|]. split; [exists (Vcq 0 0 0 0), (Mem [Some [Raw; Raw; Raw; Raw]] 0); split; reflexivity|].
  split; [|reflexivity].
  split; [reflexivity|]. split; [split; discriminate|].
  intros [|i] x H; cbn in H; try discriminate H; injection H as <-; reflexivity.
Qed.
Print Assumptions C12_vcq_copy_dead_refuted.

(** C13: when the number of elements that left the source is a multiple of n (in
    particular when none left) copy construction preserves the content, the copy and the
    source are independent, and the copy keeps behaving as a bounded queue. *)
Theorem C13_vcq_copy_head_zero {A} (E : ety A) (n : nat) (ops : list qop) (m0 : mem A) outs xs q m :
  0 < n -> bounded_queue n [] ops = Some (outs, xs) -> vcq_after E n ops m0 outs q m ->
  (pushes ops - length xs) mod n = 0 ->
  exists c m', vcq_copy E n q m = Ok (c, m') /\ vcq_reads c m' xs /\ vcq_reads q m' xs /\
    forall ops2 outs2 ys, bounded_queue n xs ops2 = Some (outs2, ys) ->
      (exists c2 m2, vcq_run E n ops2 c m' = Ok (outs2, c2, m2) /\
                     vcq_reads c2 m2 ys /\ vcq_reads q m2 xs) /\
      (exists q2 m2, vcq_run E n ops2 q m' = Ok (outs2, q2, m2) /\
                     vcq_reads q2 m2 ys /\ vcq_reads c m2 xs).
Proof.
  intros Hn Hb Ha Hz.
  destruct (vcq_after_rep E n ops m0 outs xs outs q m Hn Hb Ha) as (_ & Hr & Hrd & _).
  destruct (vcq_copy_rep E n m q xs Hr (or_introl (eq_trans Hrd Hz)))
    as (c & m' & Ec & Hne & _ & _ & Hc & Hq).
  exists c, m'. split; [exact Ec|]. split; [exact (vcq_rep_reads E n _ _ _ Hc)|].
  split; [exact (vcq_rep_reads E n _ _ _ Hq)|].
  intros ops2 outs2 ys Hb2. split.
  - exact (vcq_run_two E n m' q c xs xs ops2 outs2 ys Hn (not_eq_sym Hne) Hq Hc Hb2).
  - exact (vcq_run_two E n m' c q xs xs ops2 outs2 ys Hn Hne Hc Hq Hb2).
Qed.
Print Assumptions C13_vcq_copy_head_zero.

Example C13_example : (pushes [QPush 1; QPush 2; QPush 3] - length [1; 2; 3]) mod 4 = 0 /\
  bounded_queue 4 [] [QPush 1; QPush 2; QPush 3] = Some ([], [1; 2; 3]) /\
  (* also after wrapping exactly once *)
  bounded_queue 2 [] [QPush 1; QPush 2; QPop; QPush 3; QPop; QPush 4] = Some ([1; 2], [3; 4]) /\
  (pushes [QPush 1; QPush 2; QPop; QPush 3; QPop; QPush 4] - length [3; 4]) mod 2 = 0.
Proof. split_and!; reflexivity. Qed.

(** C13 for copy assignment to another queue with an arbitrary history. *)
Theorem C13_vcq_copy_assign_head_zero {A} (E : ety A) (n : nat)
    (ops opst : list qop) (m0 m1 : mem A) outs outst xs ys q t m :
  0 < n ->
  bounded_queue n [] ops = Some (outs, xs) -> vcq_after E n ops m0 outs q m1 ->
  bounded_queue n [] opst = Some (outst, ys) -> vcq_after E n opst m1 outst t m ->
  (pushes ops - length xs) mod n = 0 ->
  exists t' m', vcq_copy_assign E n t q m = Ok (t', m') /\ leaks m' = leaks m /\
    vcq_reads t' m' xs /\ vcq_reads q m' xs /\
    forall ops2 outs2 zs, bounded_queue n xs ops2 = Some (outs2, zs) ->
      exists c2 m2, vcq_run E n ops2 t' m' = Ok (outs2, c2, m2) /\
                    vcq_reads c2 m2 zs /\ vcq_reads q m2 xs.
Proof.
  intros Hn Hb Ha Hbt Hat Hz.
  destruct (vcq_after_rep E n ops m0 outs xs outs q m1 Hn Hb Ha) as (_ & Hr & Hrd & _).
  destruct (vcq_after_rep E n opst m1 outst ys outst t m Hn Hbt Hat) as (_ & Ht & _ & _ & Hold).
  assert (Hne : q_blk t <> q_blk q).
  { destruct Hr as (cs & Hbk & _). destruct (Hold _ _ Hbk) as [_ ?]. by apply not_eq_sym. }
  assert (Hq : vcq_rep E n m q xs).
  { apply (vcq_rep_mono E n m1); [|exact Hr]. intros cs Hcs. exact (proj1 (Hold _ _ Hcs)). }
  destruct (vcq_copy_assign_rep E n m t q ys xs Ht Hq Hne (or_introl (eq_trans Hrd Hz)))
    as (t' & cs & Ec & Hbk & _ & Hc & Hq').
  eexists t', _. split; [exact Ec|]. split; [reflexivity|].
  split; [exact (vcq_rep_reads E n _ _ _ Hc)|]. split; [exact (vcq_rep_reads E n _ _ _ Hq')|].
  intros ops2 outs2 zs Hb2.
  refine (vcq_run_two E n _ q t' xs xs ops2 outs2 zs Hn _ Hq' Hc Hb2). congruence.
Qed.
Print Assumptions C13_vcq_copy_assign_head_zero.

(** C14: copies and moves of a Vcb. *)
Theorem C14_vcb_copy {A} (E : ety A) (n : nat) (d : A) (vs : list A) (m0 : mem A) s m :
  0 < n -> vcb_after E n d vs m0 s m ->
  exists c m', vcb_copy E n s m = Ok (c, m') /\ leaks m' = leaks m /\
    vcb_reads n c m' (last_n n d vs) /\ vcb_reads n s m' (last_n n d vs) /\
    forall us,
      (exists c2 m2, vcb_pushes E n c us m' = Ok (c2, m2) /\
         vcb_reads n c2 m2 (last_n n d (vs ++ us)) /\ vcb_reads n s m2 (last_n n d vs)) /\
      (exists s2 m2, vcb_pushes E n s us m' = Ok (s2, m2) /\
         vcb_reads n s2 m2 (last_n n d (vs ++ us)) /\ vcb_reads n c m2 (last_n n d vs)).
Proof.
  intros Hn Ha. destruct (vcb_after_rep E n d vs m0 s m Hn Ha) as (Hr & _ & _ & _).
  destruct (vcb_copy_rep E n m s _ Hr) as (c & m' & Ec & Hne & [_ Hlk] & Hc & Hs).
  exists c, m'. split; [exact Ec|]. split; [exact Hlk|].
  split; [exact (vcb_rep_reads n _ _ _ Hc)|]. split; [exact (vcb_rep_reads n _ _ _ Hs)|].
  intros us. rewrite last_n_app. split.
  - exact (vcb_push_two E n m' s c _ _ us (not_eq_sym Hne) Hs Hc).
  - exact (vcb_push_two E n m' c s _ _ us Hne Hc Hs).
Qed.
Print Assumptions C14_vcb_copy.

Theorem C14_vcb_move {A} (E : ety A) (n : nat) (d : A) (vs : list A) (m0 : mem A) s m :
  0 < n -> vcb_after E n d vs m0 s m ->
  exists c m', vcb_move E n s m = Ok (c, m') /\ leaks m' = leaks m /\
    vcb_reads n c m' (last_n n d vs) /\
    forall us, exists c2 m2, vcb_pushes E n c us m' = Ok (c2, m2) /\
         vcb_reads n c2 m2 (last_n n d (vs ++ us)).
Proof.
  intros Hn Ha. destruct (vcb_after_rep E n d vs m0 s m Hn Ha) as (Hr & _ & _ & _).
  destruct (vcb_move_rep E n m s _ Hr) as (c & m' & Ec & Hne & Hlk & _ & Hc & Hs).
  exists c, m'. split; [exact Ec|]. split; [exact Hlk|].
  split; [exact (vcb_rep_reads n _ _ _ Hc)|].
  intros us. rewrite last_n_app.
  destruct (vcb_push_two E n m' s c _ _ us (not_eq_sym Hne) Hs Hc) as (c2 & m2 & H1 & H2 & _).
  exists c2, m2. split; assumption.
Qed.
Print Assumptions C14_vcb_move.

(** Assignment onto another buffer [t] with its own history [ws]. *)
Theorem C14_vcb_copy_assign {A} (E : ety A) (n : nat) (d : A) (vs ws : list A) (m0 m1 : mem A) s t m :
  0 < n -> vcb_after E n d vs m0 s m1 -> vcb_after E n d ws m1 t m ->
  exists t' m', vcb_copy_assign E n t s m = Ok (t', m') /\ leaks m' = leaks m /\
    vcb_reads n t' m' (last_n n d vs) /\ vcb_reads n s m' (last_n n d vs) /\
    forall us, exists t2 m2, vcb_pushes E n t' us m' = Ok (t2, m2) /\
      vcb_reads n t2 m2 (last_n n d (vs ++ us)) /\ vcb_reads n s m2 (last_n n d vs).
Proof.
  intros Hn Ha Hb. destruct (vcb_after_rep E n d vs m0 s m1 Hn Ha) as (Hs1 & _ & _ & _).
  destruct (vcb_after_rep E n d ws m1 t m Hn Hb) as (Ht & _ & _ & Hold).
  assert (Hne : cb_blk t <> cb_blk s).
  { destruct Hs1 as (lo & hi & Hbk & _). destruct (Hold _ _ Hbk) as [_ ?]. by apply not_eq_sym. }
  assert (Hs : vcb_rep n m s (last_n n d vs)).
  { apply (vcb_rep_mono n m1); [|exact Hs1]. intros cs Hcs. exact (proj1 (Hold _ _ Hcs)). }
  destruct (vcb_copy_assign_rep E n m t s _ _ Hne Ht Hs) as (t' & cs & Ec & Hbk & Ht' & Hs').
  eexists t', _. split; [exact Ec|]. split; [reflexivity|].
  split; [exact (vcb_rep_reads n _ _ _ Ht')|]. split; [exact (vcb_rep_reads n _ _ _ Hs')|].
  intros us. rewrite last_n_app.
  refine (vcb_push_two E n _ s t' _ _ us _ Hs' Ht'). congruence.
Qed.
Print Assumptions C14_vcb_copy_assign.

Theorem C14_vcb_move_assign {A} (E : ety A) (n : nat) (d : A) (vs ws : list A) (m0 m1 : mem A) s t m :
  0 < n -> vcb_after E n d vs m0 s m1 -> vcb_after E n d ws m1 t m ->
  exists t' m', vcb_move_assign E n t s m = Ok (t', m') /\ leaks m' = leaks m /\
    vcb_reads n t' m' (last_n n d vs) /\
    forall us, exists t2 m2, vcb_pushes E n t' us m' = Ok (t2, m2) /\
      vcb_reads n t2 m2 (last_n n d (vs ++ us)).
Proof.
  intros Hn Ha Hb. destruct (vcb_after_rep E n d vs m0 s m1 Hn Ha) as (Hs1 & _ & _ & _).
  destruct (vcb_after_rep E n d ws m1 t m Hn Hb) as (Ht & _ & _ & Hold).
  assert (Hne : cb_blk t <> cb_blk s).
  { destruct Hs1 as (lo & hi & Hbk & _). destruct (Hold _ _ Hbk) as [_ ?]. by apply not_eq_sym. }
  assert (Hs : vcb_rep n m s (last_n n d vs)).
  { apply (vcb_rep_mono n m1); [|exact Hs1]. intros cs Hcs. exact (proj1 (Hold _ _ Hcs)). }
  destruct (vcb_move_assign_rep E n m t s _ _ Hne Ht Hs) as (t' & m' & Ec & Hbk & Hlk & _ & Ht' & Hs').
  exists t', m'. split; [exact Ec|]. split; [exact Hlk|].
  split; [exact (vcb_rep_reads n _ _ _ Ht')|].
  intros us. rewrite last_n_app.
  assert (Hne' : cb_blk s <> cb_blk t') by congruence.
  destruct (vcb_push_two E n _ s t' _ _ us Hne' Hs' Ht') as (t2 & m2 & H1 & H2 & _).
  exists t2, m2. split; assumption.
Qed.
Print Assumptions C14_vcb_move_assign.

Example C14_example : exists s m t m',
  vcb_after cls 2 0 [1; 2; 3] mem0 s m /\ vcb_after cls 2 0 [4] m t m' /\ last_n 2 0 [1; 2; 3] = [2; 3].
Proof.
  destruct (vcb_after_exists cls 2 0 [1; 2; 3] mem0 ltac:(lia)) as (s & m & H).
  destruct (vcb_after_exists cls 2 0 [4] m ltac:(lia)) as (t & m' & H').
  exists s, m, t, m'. split; [exact H|]. split; [exact H'|]. reflexivity.
Qed.

(** C15: iteration over a Vcb gives the window. *)
Theorem C15_vcb_iter {A} (E : ety A) (n : nat) (d : A) (vs : list A) (m0 : mem A) s m :
  0 < n -> vcb_after E n d vs m0 s m -> vcb_iter n s m = Ok (last_n n d vs).
Proof.
  intros Hn H. exact (vcb_iter_rep n m s _ (proj1 (vcb_after_rep E n d vs m0 s m Hn H))).
Qed.
Print Assumptions C15_vcb_iter.

(** C15: iteration over a non-empty Vcq gives its content.  Missing: the empty queue, for
    which the claim is false, see C15_vcq_iter_empty_refuted. *)
Theorem C15_vcq_iter_partial {A} (E : ety A) (n : nat) (ops : list qop) (m0 : mem A) outs xs q m :
  0 < n -> bounded_queue n [] ops = Some (outs, xs) -> vcq_after E n ops m0 outs q m ->
  xs <> [] -> vcq_iter n q m = Ok xs.
Proof.
  intros Hn Hb Ha Hne.
  destruct (vcq_after_rep E n ops m0 outs xs outs q m Hn Hb Ha) as (_ & Hr & _).
  exact (vcq_iter_rep E n m q xs Hr Hne).
Qed.
Print Assumptions C15_vcq_iter_partial.

Example C15_example :
  bounded_queue 2 [] [QPush 1; QPush 2; QPush 3] = Some ([], [2; 3]) /\
  (let* (_, q, m) := vcq_run cls 2 [QPush 1; QPush 2; QPush 3] (fst (vcq_new 2 (mem0 : mem nat))) (snd (vcq_new 2 mem0)) in
   vcq_iter 2 q m) = Ok [2; 3].
Proof. split; reflexivity. Qed.

(** C15: iterating over an empty queue does not give nothing.  On a fresh queue it reads
    uninitialised storage; after one push and pop of an int it yields stale elements. *)
Theorem C15_vcq_iter_empty_refuted :
  (exists q m, vcq_after cls 1 [] mem0 [] q m /\ vcq_reads q m [] /\ vcq_iter 1 q m = UB Uninit) /\
  (exists q m, vcq_after int 1 [QPush 5; QPop] mem0 [5] q m /\ vcq_reads q m [] /\
               vcq_iter 1 q m = Ok [5]).
Proof.
  split.
  - exists (Vcq 0 0 0 0), (Mem [Some [Raw; Raw]] 0).
    split; [exists (Vcq 0 0 0 0), (Mem [Some [Raw; Raw]] 0); split; reflexivity|].
    split; [|reflexivity]. split; [reflexivity|]. split; [split; reflexivity|].
    intros i x H; discriminate H.
  - exists (Vcq 0 0 0 0), (Mem [Some [Live 5; Live 5]] 0).
    split; [exists (Vcq 0 0 0 0), (Mem [Some [Raw; Raw]] 0); split; reflexivity|].
    split; [|reflexivity]. split; [reflexivity|]. split; [split; reflexivity|].
    intros i x H; discriminate H.
Qed.
Print Assumptions C15_vcq_iter_empty_refuted.

(** C16: writes through operator[]. *)
(** With two elements and one push done, vcb[1] = 9 is lost by the next push. *)
Theorem C16_vcb_write_refuted :
  exists s m m1 s2 m2,
    vcb_after int 2 0 [1] mem0 s m /\
    vcb_set int s 1 9 m = Ok m1 /\ vcb_get s 1 m1 = Ok 9 /\
    vcb_pushes int 2 s [7] m1 = Ok (s2, m2) /\
    (* the element is now at index 0 *) vcb_get s2 0 m2 = Ok 1.
Proof.
  exists (Vcb 0 1), (Mem [Some [Live 1; Live 0; Live 1; Live 0]] 0).
  exists (Mem [Some [Live 1; Live 0; Live 9; Live 0]] 0).
  exists (Vcb 0 0), (Mem [Some [Live 1; Live 7; Live 9; Live 7]] 0).
  split; [exists (Vcb 0 0), (Mem [Some [Live 0; Live 0; Live 0; Live 0]] 0); split; reflexivity|].
  split_and!; reflexivity.
Qed.
Print Assumptions C16_vcb_write_refuted.

Theorem C16_vcq_write_refuted :
  exists q m m1 q2 m2,
    vcq_after int 2 [QPush 1; QPush 2; QPop; QPush 3] mem0 [1] q m /\
    vcq_set int q 1 9 m = Ok m1 /\ vcq_get q 1 m1 = Ok 9 /\
    vcq_run int 2 [QPop] q m1 = Ok ([2], q2, m2) /\
    (* the element is now at index 0 *) vcq_get q2 0 m2 = Ok 3.
Proof.
  exists (Vcq 0 2 1 1), (Mem [Some [Live 3; Live 2; Live 3; Live 2]] 0).
  exists (Mem [Some [Live 3; Live 2; Live 9; Live 2]] 0).
  exists (Vcq 0 1 0 1), (Mem [Some [Live 3; Live 2; Live 9; Live 2]] 0).
  split; [exists (Vcq 0 0 0 0), (Mem [Some [Raw; Raw; Raw; Raw]] 0); split; reflexivity|].
  split_and!; reflexivity.
Qed.
Print Assumptions C16_vcq_write_refuted.

(** C16: the write does persist when the element written does not lie beyond the wrap-around
    point.  Missing: the other positions, where the claim is false. *)
Theorem C16_vcb_write_partial {A} (E : ety A) (n : nat) (d : A) (vs us : list A) (m0 : mem A) s m i x :
  0 < n -> vcb_after E n d vs m0 s m -> length vs mod n + i < n ->
  exists m1 s2 m2, vcb_set E s i x m = Ok m1 /\ vcb_reads n s m1 (<[i := x]> (last_n n d vs)) /\
    vcb_pushes E n s us m1 = Ok (s2, m2) /\
    vcb_reads n s2 m2 (drop (length us) (<[i := x]> (last_n n d vs) ++ us)).
Proof.
  intros Hn Ha Hi. destruct (vcb_after_rep E n d vs m0 s m Hn Ha) as (Hr & Hd & _ & _).
  destruct (vcb_set_rep E n m s _ i x Hr) as (cs & Es & Hr1); [by rewrite Hd|].
  destruct (vcb_pushes_rep E n us _ _ _ Hr1) as (s2 & cs2 & E2 & _ & Hr2).
  eexists _, s2, _. split; [exact Es|]. split; [exact (vcb_rep_reads n _ _ _ Hr1)|].
  split; [exact E2|]. exact (vcb_rep_reads n _ _ _ Hr2).
Qed.
Print Assumptions C16_vcb_write_partial.

Theorem C16_vcq_write_partial {A} (E : ety A) (n : nat) (ops ops2 : list qop) (m0 : mem A)
    outs outs2 xs ys q m i x :
  0 < n -> bounded_queue n [] ops = Some (outs, xs) -> vcq_after E n ops m0 outs q m ->
  i < length xs -> (pushes ops - length xs) mod n + i < n ->
  bounded_queue n (<[i := x]> xs) ops2 = Some (outs2, ys) ->
  exists m1 q2 m2, vcq_set E q i x m = Ok m1 /\ vcq_reads q m1 (<[i := x]> xs) /\
    vcq_run E n ops2 q m1 = Ok (outs2, q2, m2) /\ vcq_reads q2 m2 ys.
Proof.
  intros Hn Hb Ha Hi Hlow Hb2.
  destruct (vcq_after_rep E n ops m0 outs xs outs q m Hn Hb Ha) as (_ & Hr & Hrd & _).
  destruct (vcq_set_rep E n m q xs i x Hr Hi) as (cs & Es & Hr1); [by rewrite Hrd|].
  destruct (vcq_run_rep E n ops2 Hn _ q _ outs2 ys Hr1 Hb2) as (q2 & cs2 & E2 & _ & Hr2 & _).
  eexists _, q2, _. split; [exact Es|]. split; [exact (vcq_rep_reads E n _ _ _ Hr1)|].
  split; [exact E2|]. exact (vcq_rep_reads E n _ _ _ Hr2).
Qed.
Print Assumptions C16_vcq_write_partial.

Example C16_example : length [1; 2; 3; 4] mod 3 + 1 < 3 /\
  drop 1 (<[1 := 9]> (last_n 3 0 [1; 2; 3; 4]) ++ [5]) = [9; 4; 5] /\
  (pushes [QPush 1; QPush 2; QPush 3; QPop] - length [2; 3]) mod 3 + 1 < 3.
Proof. split_and!; [vm_compute; lia|reflexivity|vm_compute; lia]. Qed.

(** C17: lifetimes.  [Ok] means no read, move, assignment or destruction outside a lifetime;
    unchanged [leaks] means no live class-type object was overwritten or released. *)
Theorem C17_vcb_lifecycle {A} (E : ety A) (n : nat) (d : A) (vs : list A) (m0 : mem A) :
  0 < n -> exists s m m', vcb_after E n d vs m0 s m /\ vcb_destroy E n s m = Ok m' /\
    leaks m' = leaks m0.
Proof.
  intros Hn. destruct (vcb_after_exists E n d vs m0 Hn) as (s & m & H).
  destruct (vcb_after_rep E n d vs m0 s m Hn H) as (Hr & _ & Hlk & _).
  eexists s, m, _. split; [exact H|]. split; [exact (vcb_destroy_rep E n m s _ Hr)|]. exact Hlk.
Qed.
Print Assumptions C17_vcb_lifecycle.

Theorem C17_vcq_lifecycle {A} (E : ety A) (n : nat) (ops : list qop) (m0 : mem A) outs xs :
  0 < n -> bounded_queue n [] ops = Some (outs, xs) ->
  exists q m m', vcq_after E n ops m0 outs q m /\ vcq_destroy E n q m = Ok m' /\
    leaks m' = leaks m0.
Proof.
  intros Hn Hb. destruct (vcq_after_exists E n ops m0 outs xs Hn Hb) as (q & m & H).
  destruct (vcq_after_rep E n ops m0 outs xs outs q m Hn Hb H) as (_ & Hr & _ & Hlk & _).
  eexists q, m, _. split; [exact H|]. split; [exact (vcq_destroy_rep E n m q xs Hr)|]. exact Hlk.
Qed.
Print Assumptions C17_vcq_lifecycle.

Example C17_example :
  (let* (_, q, m) := vcq_run cls 2 [QPush 1; QPush 2; QPush 3; QPop] (fst (vcq_new 2 (mem0 : mem nat))) (snd (vcq_new 2 mem0)) in
   let* m := vcq_destroy cls 2 q m in Ok (leaks m)) = Ok 0 /\
  (* releasing without destroying is a leak of both copies of the remaining element *)
  (let* (_, q, m) := vcq_run cls 2 [QPush 1; QPush 2; QPush 3; QPop] (fst (vcq_new 2 (mem0 : mem nat))) (snd (vcq_new 2 mem0)) in
   let* m := free cls m (q_blk q) in Ok (leaks m)) = Ok 2.
Proof. split; reflexivity. Qed.

(** C82: pushing a reference to an element of the queue itself. *)
(** A full queue destroys its oldest element before reading the argument. *)
Theorem C82_vcq_push_own_refuted :
  exists q m, vcq_after cls 2 [QPush 1; QPush 2] mem0 [] q m /\ vcq_get q 0 m = Ok 1 /\
    vcq_push_own cls 2 q 0 m = UB Uninit.
Proof.
  exists (Vcq 0 2 0 0), (Mem [Some [Live 1; Live 2; Live 1; Live 2]] 0).
  split; [exists (Vcq 0 0 0 0), (Mem [Some [Raw; Raw; Raw; Raw]] 0); split; reflexivity|]. split; reflexivity.
Qed.
Print Assumptions C82_vcq_push_own_refuted.

(** C82: the argument is appended if the queue is not full or it is not the oldest element.
    Missing: the oldest element of a full queue, where the claim is false. *)
Theorem C82_vcq_push_own_partial {A} (E : ety A) (n : nat) (ops : list qop) (m0 : mem A)
    outs xs q m i x :
  0 < n -> bounded_queue n [] ops = Some (outs, xs) -> vcq_after E n ops m0 outs q m ->
  xs !! i = Some x -> length xs < n \/ 0 < i ->
  exists q' m', vcq_push_own E n q i m = Ok (q', m') /\
    vcq_reads q' m' (if decide (length xs = n) then tail xs ++ [x] else xs ++ [x]).
Proof.
  intros Hn Hb Ha Hi Hc.
  destruct (vcq_after_rep E n ops m0 outs xs outs q m Hn Hb Ha) as (_ & Hr & Hrd & _).
  rewrite (vcq_push_own_eq E n m q xs i x Hr Hi Hc).
  destruct (vcq_push_rep E n m q xs x Hn Hr) as (q' & cs & E1 & _ & Hr' & _).
  eexists q', _. split; [exact E1|]. exact (vcq_rep_reads E n _ _ _ Hr').
Qed.
Print Assumptions C82_vcq_push_own_partial.

Example C82_example : bounded_queue 2 [] [QPush 1; QPush 2] = Some ([], [1; 2]) /\
  [1; 2] !! 1 = Some 2 /\ tail [1; 2] ++ [2] = [2; 2].
Proof. split_and!; reflexivity. Qed.
