(** Vector (sequence.hpp, VectorBase): properties C18-C25 and the Vector part of C29. *)
From Verif Require Import Base.Cpp Base.Mem Model.Vector Spec.VectorSpec.
From Verif Require Import Proofs.MemLemmas Proofs.VectorProofs.

(** Element types for the examples: a class type whose moved-from value is 0, and int. *)
Definition cls : ety nat := Ety false (fun _ => 0).
Definition int : ety nat := Ety true (fun x => x).

(** C18: every history a list allows runs without undefined behaviour, throws at the same
    operations, and leaves a vector that reads as the list. *)
Theorem C18_vector_is_list {A} (E : ety A) init ops (m0 : mem A) ts ys :
  triv E = true -> list_run ops (init_list init) = Some (ts, ys) ->
  (exists v m, vec_after E init ops m0 ts v m) /\
  (forall ts' v m, vec_after E init ops m0 ts' v m -> ts' = ts /\ vec_reads v m ys).
Proof.
  intros Ht Hl. split.
  - destruct (vec_after_rep E init ops m0 ts ys Hl (or_introl Ht)) as (v & m & Ha & _).
    exists v, m. exact Ha.
  - intros ts' v m Ha.
    destruct (vec_after_inv E init ops m0 ts ys ts' v m Hl (or_introl Ht) Ha) as (-> & Hr & _).
    split; [reflexivity|]. exact (vec_rep_reads E m v ys Hr).
Qed.
Print Assumptions C18_vector_is_list.

Example C18_example : triv int = true /\
  list_run [VPop; VPush 1; VPush 2; VInsert 1 7; VErase 9; VErase 0; VShrink; VSet 0 5] [] =
    Some ([true; false; false; false; true; false; false; false], [5; 2]).
Proof. split; reflexivity. Qed.

(** C18: each single operation throws exactly when the list operation does. *)
Theorem C18_vector_throws {A} (E : ety A) init ops (m0 : mem A) ts ys v m o :
  triv E = true -> list_run ops (init_list init) = Some (ts, ys) ->
  vec_after E init ops m0 ts v m -> list_op o ys <> LUndef ->
  (vec_step E o v m = Throw <-> list_op o ys = LThrow).
Proof.
  intros Ht Hl Ha Ho.
  destruct (vec_after_inv E init ops m0 ts ys ts v m Hl (or_introl Ht) Ha) as (_ & Hr & _).
  pose proof (vec_step_rep E o m v ys Hr (or_introl Ht)) as Hs.
  destruct (list_op o ys) as [l| |].
  - destruct Hs as (v' & m' & -> & _). split; discriminate.
  - split; auto.
  - contradiction.
Qed.
Print Assumptions C18_vector_throws.

Example C18_throws_example : list_op (@VPop nat) [] = LThrow /\
  list_op (VInsert 3 9) [1; 2] = LThrow /\ list_op (@VErase nat 2) [1; 2] = LThrow /\
  list_op (VInsert 2 9) [1; 2] = LOk [1; 2; 9].
Proof. split_and!; reflexivity. Qed.

(** C19: nothing allocated, or at least one spare slot in a block of capacity() cells. *)
Theorem C19_vector_spare_slot {A} (E : ety A) init ops (m0 : mem A) ts ys ts' v m :
  triv E = true -> list_run ops (init_list init) = Some (ts, ys) ->
  vec_after E init ops m0 ts' v m ->
  (v_data v = Null /\ v_size v = 0 /\ v_cap v = 0) \/
  (v_size v + 1 <= v_cap v /\
   exists b cs, v_data v = Blk b /\ blk m b cs /\ length cs = v_cap v).
Proof.
  intros Ht Hl Ha.
  destruct (vec_after_inv E init ops m0 ts ys ts' v m Hl (or_introl Ht) Ha) as (_ & (Hs & Hr) & _).
  destruct Hr as [(Hd & -> & Hc)|(b & rest & Hd & Hb & _ & Hc & H1)].
  - left. auto.
  - right. split; [rewrite Hs, Hc; apply Nat.add_le_mono_l; exact H1|].
    eexists b, _. split; [exact Hd|]. split; [exact Hb|].
    rewrite app_length, fmap_length. symmetry. exact Hc.
Qed.
Print Assumptions C19_vector_spare_slot.

Example C19_example : exists v m, vec_after int None [VPush 1; VPush 2; VPush 3] mem0
  [false; false; false] v m /\ v_size v = 3 /\ v_cap v = 5.
Proof.
  exists (Vec (Blk 2) 3 5), (Mem [None; None; Some [Live 1; Live 2; Live 3; Raw; Raw]] 0).
  split; [|split; reflexivity]. exists vec_new, mem0. split; reflexivity.
Qed.

(** C20: a vector that owns storage is copied to an equal, independent vector, for any
    element type. *)
Theorem C20_vector_copy_partial {A} (E : ety A) init ops (m0 : mem A) ts ys v m b :
  list_run ops (init_list init) = Some (ts, ys) ->
  triv E = true \/ all_at_end ops (init_list init) = true ->
  vec_after E init ops m0 ts v m -> v_data v = Blk b ->
  exists c m', vec_copy E v m = Ok (c, m') /\ vec_reads c m' ys /\ vec_reads v m' ys /\
    leaks m' = leaks m /\
    forall ops2 ts2 zs, list_run ops2 ys = Some (ts2, zs) ->
      triv E = true \/ all_at_end ops2 ys = true ->
      (exists c2 m2, vec_run E ops2 c m' = Ok (ts2, c2, m2) /\ vec_reads c2 m2 zs /\ vec_reads v m2 ys) /\
      (exists v2 m2, vec_run E ops2 v m' = Ok (ts2, v2, m2) /\ vec_reads v2 m2 zs /\ vec_reads c m2 ys).
Proof.
  intros Hl Hf Ha Hd.
  destruct (vec_after_inv E init ops m0 ts ys ts v m Hl Hf Ha) as (_ & Hr & _).
  destruct (vec_copy_rep E m v ys b Hr Hd) as (c & m' & Ec & Hc & Hv & Hdj & Hfr & _).
  exists c, m'. split; [exact Ec|]. split; [exact (vec_rep_reads E _ _ _ Hc)|].
  split; [exact (vec_rep_reads E _ _ _ Hv)|]. split; [exact (proj1 Hfr)|].
  intros ops2 ts2 zs Hl2 Hf2. split.
  - destruct (vec_run_rep E ops2 m' c ys ts2 zs Hc Hf2 Hl2) as (c2 & m2 & E2 & Hc2 & Hfr2).
    exists c2, m2. split; [exact E2|]. split; [exact (vec_rep_reads E _ _ _ Hc2)|].
    exact (vec_rep_reads E _ _ _ (proj1 (frame_other E _ _ _ _ _ _ Hfr2 Hv Hdj))).
  - destruct (vec_run_rep E ops2 m' v ys ts2 zs Hv Hf2 Hl2) as (v2 & m2 & E2 & Hv2 & Hfr2).
    exists v2, m2. split; [exact E2|]. split; [exact (vec_rep_reads E _ _ _ Hv2)|].
    exact (vec_rep_reads E _ _ _ (proj1 (frame_other E _ _ _ _ _ _ Hfr2 Hc (disj_sym _ _ Hdj)))).
Qed.
Print Assumptions C20_vector_copy_partial.

Example C20_example : exists v m, vec_after cls None [VPush 1; VPush 2] mem0 [false; false] v m /\
  v_data v = Blk 1 /\ all_at_end [VPush 1; VPush 2] [] = true.
Proof.
  exists (Vec (Blk 1) 2 3), (Mem [None; Some [Live 1; Live 2; Raw]] 0).
  split; [|split; reflexivity]. exists vec_new, mem0. split; reflexivity.
Qed.

(** C20: a copy of a vector that never allocated has an indeterminate data pointer: destroying
    it, which every copy eventually undergoes, is undefined. *)
Theorem C20_vector_copy_empty_refuted :
  exists v (m : mem nat) c m', vec_after int None [] mem0 [] v m /\ vec_reads v m [] /\
    vec_copy int v m = Ok (c, m') /\ vec_destroy int c m' = UB IndetPtr.
Proof.
  exists vec_new, mem0, (Vec Indet 0 0), mem0.
  split; [exists vec_new, mem0; split; reflexivity|].
  split; [|split; reflexivity]. split; [reflexivity|]. split; [|reflexivity].
  intros i x Hx. discriminate Hx.
Qed.
Print Assumptions C20_vector_copy_empty_refuted.

(** C20: the same for every never-allocated or moved-from vector. *)
Theorem C20_vector_copy_empty_all_refuted {A} (E : ety A) (v : vec) (m : mem A) :
  v_data v = Null -> exists c, vec_copy E v m = Ok (c, m) /\ vec_destroy E c m = UB IndetPtr.
Proof.
  intros Hd. unfold vec_copy. rewrite Hd. eexists. split; reflexivity.
Qed.
Print Assumptions C20_vector_copy_empty_all_refuted.

Example C20_empty_example : v_data vec_new = Null /\ v_data (snd (vec_move (Vec (Blk 0) 1 2))) = Null.
Proof. split; reflexivity. Qed.

(** C21: copy assignment is right when the target must grow (trivial elements or an empty
    target), or when both have the same size. *)
Theorem C21_vector_copy_assign_partial {A} (E : ety A) ia ib opa opb (m0 m1 m : mem A) ta tb xs ys a b :
  list_run opa (init_list ia) = Some (ta, xs) -> triv E = true \/ all_at_end opa (init_list ia) = true ->
  list_run opb (init_list ib) = Some (tb, ys) -> triv E = true \/ all_at_end opb (init_list ib) = true ->
  vec_after E ia opa m0 ta a m1 -> vec_after E ib opb m1 tb b m ->
  (v_cap a < length ys + 1 /\ (triv E = true \/ xs = [])) \/
    (length ys + 1 <= v_cap a /\ length xs = length ys) ->
  exists a' m', vec_copy_assign E a b m = Ok (a', m') /\ vec_reads a' m' ys /\ vec_reads b m' ys /\
    leaks m' = leaks m.
Proof.
  intros Hla Hfa Hlb Hfb Ha Hb Hcase.
  destruct (vec_after_inv E ia opa m0 ta xs ta a m1 Hla Hfa Ha) as (_ & Hra & _).
  destruct (vec_after_inv E ib opb m1 tb ys tb b m Hlb Hfb Hb) as (_ & Hrb & Hfr).
  assert (Hnew : disj a vec_new) by (intros ? _ H; discriminate H).
  destruct (frame_other E _ _ _ _ _ _ Hfr Hra Hnew) as [Hra2 Hdj].
  destruct (vec_copy_assign_rep E m a b xs ys Hra2 Hrb (disj_sym _ _ Hdj) Hcase)
    as (a' & m' & Eq & Ha' & Hb' & _ & Hf').
  exists a', m'. split; [exact Eq|]. split; [exact (vec_rep_reads E _ _ _ Ha')|].
  split; [exact (vec_rep_reads E _ _ _ Hb')|]. exact (proj1 Hf').
Qed.
Print Assumptions C21_vector_copy_assign_partial.

Example C21_example : exists a m, vec_after int (Some [1]) [] mem0 [] a m /\
  v_cap a < length [7; 8; 9] + 1 /\ list_run [] [7; 8; 9] = Some ([], [7; 8; 9]).
Proof.
  exists (Vec (Blk 0) 1 2), (Mem [Some [Live 1; Raw]] 0).
  split; [|split; [cbn; repeat constructor|reflexivity]].
  eexists _, _. split; reflexivity.
Qed.

(** C21: assigning a shorter vector leaves the old size: a = {1,2,3}; b = {9}; a = b leaves
    {9,2,3} in a. *)
Theorem C21_vector_copy_assign_shorter_refuted :
  exists a b (m1 m : mem nat) a' m',
    vec_after int (Some [1; 2; 3]) [] mem0 [] a m1 /\ vec_after int (Some [9]) [] m1 [] b m /\
    vec_copy_assign int a b m = Ok (a', m') /\ vec_reads a' m' [9; 2; 3].
Proof.
  exists (Vec (Blk 0) 3 4), (Vec (Blk 1) 1 2), (Mem [Some [Live 1; Live 2; Live 3; Raw]] 0),
    (Mem [Some [Live 1; Live 2; Live 3; Raw]; Some [Live 9; Raw]] 0),
    (Vec (Blk 0) 3 4), (Mem [Some [Live 9; Live 2; Live 3; Raw]; Some [Live 9; Raw]] 0).
  split; [exists (Vec (Blk 0) 3 4), (Mem [Some [Live 1; Live 2; Live 3; Raw]] 0); split; reflexivity|].
  split; [exists (Vec (Blk 1) 1 2), (Mem [Some [Live 1; Live 2; Live 3; Raw]; Some [Live 9; Raw]] 0);
          split; reflexivity|].
  split; [reflexivity|]. split; [reflexivity|]. split; [|reflexivity].
  intros [|[|[|i]]] x H; cbn in H; try discriminate H; injection H as <-; reflexivity.
Qed.
Print Assumptions C21_vector_copy_assign_shorter_refuted.

(** C21: the same for all trivial-element vectors with enough capacity: the target keeps its
    size, so a longer target keeps its tail. *)
Theorem C21_vector_copy_assign_keeps_tail_refuted {A} (E : ety A) ia ib opa opb (m0 m1 m : mem A) ta tb xs ys a b :
  triv E = true ->
  list_run opa (init_list ia) = Some (ta, xs) -> list_run opb (init_list ib) = Some (tb, ys) ->
  vec_after E ia opa m0 ta a m1 -> vec_after E ib opb m1 tb b m ->
  length ys < length xs ->
  exists a' m', vec_copy_assign E a b m = Ok (a', m') /\
    vec_reads a' m' (ys ++ drop (length ys) xs) /\ ~ vec_reads a' m' ys.
Proof.
  intros Ht Hla Hlb Ha Hb Hlt.
  destruct (vec_after_inv E ia opa m0 ta xs ta a m1 Hla (or_introl Ht) Ha) as (_ & Hra & _).
  destruct (vec_after_inv E ib opb m1 tb ys tb b m Hlb (or_introl Ht) Hb) as (_ & Hrb & Hfr).
  assert (Hnew : disj a vec_new) by (intros ? _ H; discriminate H).
  destruct (frame_other E _ _ _ _ _ _ Hfr Hra Hnew) as [Hra2 Hdj].
  assert (Hcap : length ys + 1 <= v_cap a).
  { destruct (vec_rep_cap E _ _ _ Hra2) as [(-> & _)|H]; [cbn in Hlt; lia|lia]. }
  destruct (vec_copy_assign_keeps E m a b xs ys Ht Hra2 Hrb (disj_sym _ _ Hdj) Hcap) as (m' & Eq & Hr'); [lia|].
  exists a, m'. split; [exact Eq|].
  pose proof (vec_rep_reads E _ _ _ Hr') as Hread. split; [exact Hread|].
  intros Hys. pose proof (vec_reads_fun _ _ _ _ Hread Hys) as Heq.
  apply (f_equal length) in Heq. rewrite app_length, drop_length in Heq. lia.
Qed.
Print Assumptions C21_vector_copy_assign_keeps_tail_refuted.

(** C21: for a class type, growing the target moves from elements already destroyed. *)
Theorem C21_vector_copy_assign_class_refuted :
  exists a b (m1 m : mem nat),
    vec_after cls (Some [1]) [] mem0 [] a m1 /\ vec_after cls (Some [9; 8; 7]) [] m1 [] b m /\
    vec_copy_assign cls a b m = UB Uninit.
Proof.
  exists (Vec (Blk 0) 1 2), (Vec (Blk 1) 3 4), (Mem [Some [Live 1; Raw]] 0),
    (Mem [Some [Live 1; Raw]; Some [Live 9; Live 8; Live 7; Raw]] 0).
  split; [exists (Vec (Blk 0) 1 2), (Mem [Some [Live 1; Raw]] 0); split; reflexivity|].
  split; [exists (Vec (Blk 1) 3 4), (Mem [Some [Live 1; Raw]; Some [Live 9; Live 8; Live 7; Raw]] 0);
          split; reflexivity|].
  reflexivity.
Qed.
Print Assumptions C21_vector_copy_assign_class_refuted.

(** C22: move construction; the source becomes an empty vector that can be used again. *)
Theorem C22_vector_move_construct {A} (E : ety A) init ops (m0 : mem A) ts ys v m :
  list_run ops (init_list init) = Some (ts, ys) ->
  triv E = true \/ all_at_end ops (init_list init) = true ->
  vec_after E init ops m0 ts v m ->
  let (w, v') := vec_move v in
  vec_reads w m ys /\ vec_reads v' m [] /\
  forall ops2 ts2 zs, list_run ops2 [] = Some (ts2, zs) ->
    triv E = true \/ all_at_end ops2 [] = true ->
    exists v2 m2, vec_run E ops2 v' m = Ok (ts2, v2, m2) /\ vec_reads v2 m2 zs /\ vec_reads w m2 ys /\
      exists m3 m4, vec_destroy E v2 m2 = Ok m3 /\ vec_destroy E w m3 = Ok m4 /\
        leaks m4 = leaks m0 /\ allocations m4 = allocations m0.
Proof.
  intros Hl Hf Ha.
  destruct (vec_after_inv E init ops m0 ts ys ts v m Hl Hf Ha) as (_ & Hr & Hfr).
  destruct v as [d sz c]. cbn [vec_move v_data v_size v_cap].
  split; [exact (vec_rep_reads E _ _ _ Hr)|].
  split; [exact (vec_rep_reads E _ _ _ (vec_rep_new E m))|].
  intros ops2 ts2 zs Hl2 Hf2.
  destruct (vec_run_rep E ops2 m vec_new [] ts2 zs (vec_rep_new E m) Hf2 Hl2) as (v2 & m2 & E2 & Hv2 & Hfr2).
  exists v2, m2. split; [exact E2|]. split; [exact (vec_rep_reads E _ _ _ Hv2)|].
  assert (Hnew : disj (Vec d sz c) vec_new) by (intros ? _ H; discriminate H).
  destruct (frame_other E _ _ _ _ _ _ Hfr2 Hr Hnew) as [Hr2 Hdj].
  split; [exact (vec_rep_reads E _ _ _ Hr2)|].
  destruct (vec_destroy_rep E m2 v2 zs Hv2) as (m3 & E3 & Hl3 & Ha3 & Hb3 & _).
  assert (Hr3 : vec_rep E m3 (Vec d sz c) ys).
  { apply (vec_rep_mono E m2); [|exact Hr2]. intros b cs Hbd Hbk. apply Hb3; [|exact Hbk].
    intros H. exact (Hdj b Hbd H). }
  destruct (vec_destroy_rep E m3 _ ys Hr3) as (m4 & E4 & Hl4 & Ha4 & _).
  exists m3, m4. split; [exact E3|]. split; [exact E4|].
  destruct Hfr as (Hlf & _ & _ & _ & Haf). destruct Hfr2 as (Hlf2 & _ & _ & _ & Haf2).
  split; [congruence|]. change (held vec_new) with 0 in *. lia.
Qed.
Print Assumptions C22_vector_move_construct.

Example C22_example : list_run [VPush 1; VPush 2] [] = Some ([false; false], [1; 2]) /\
  all_at_end [VPush 1; VPush 2] [] = true /\
  vec_move (Vec (Blk 1) 2 3) = (Vec (Blk 1) 2 3, Vec Null 0 0).
Proof. split_and!; reflexivity. Qed.

(** C22: move assignment between two vectors with arbitrary histories: the target's old
    elements and storage are released, the source becomes empty, and destroying both in the
    end releases everything. *)
Theorem C22_vector_move_assign {A} (E : ety A) ia ib opa opb (m0 m1 m : mem A) ta tb xs ys a b :
  list_run opa (init_list ia) = Some (ta, xs) -> triv E = true \/ all_at_end opa (init_list ia) = true ->
  list_run opb (init_list ib) = Some (tb, ys) -> triv E = true \/ all_at_end opb (init_list ib) = true ->
  vec_after E ia opa m0 ta a m1 -> vec_after E ib opb m1 tb b m ->
  exists a' b' m', vec_move_assign E a b m = Ok (a', b', m') /\
    vec_reads a' m' ys /\ vec_reads b' m' [] /\ leaks m' = leaks m0 /\
    forall ops2 ts2 zs, list_run ops2 [] = Some (ts2, zs) ->
      triv E = true \/ all_at_end ops2 [] = true ->
      exists b2 m2, vec_run E ops2 b' m' = Ok (ts2, b2, m2) /\ vec_reads b2 m2 zs /\ vec_reads a' m2 ys /\
        exists m3 m4, vec_destroy E b2 m2 = Ok m3 /\ vec_destroy E a' m3 = Ok m4 /\
          leaks m4 = leaks m0 /\ allocations m4 = allocations m0.
Proof.
  intros Hla Hfa Hlb Hfb Ha Hb.
  destruct (vec_after_inv E ia opa m0 ta xs ta a m1 Hla Hfa Ha) as (_ & Hra & Hfra).
  destruct (vec_after_inv E ib opb m1 tb ys tb b m Hlb Hfb Hb) as (_ & Hrb & Hfrb).
  assert (Hnew : forall w, disj w vec_new) by (intros w ? _ H; discriminate H).
  destruct (frame_other E _ _ _ _ _ _ Hfrb Hra (Hnew a)) as [Hra2 Hdj].
  destruct (vec_move_assign_rep E m a b xs ys Hra2 Hrb Hdj) as (m' & Eq & Hr & Hlk & Hal & _ & _).
  exists b, vec_new, m'. split; [exact Eq|]. split; [exact (vec_rep_reads E _ _ _ Hr)|].
  split; [exact (vec_rep_reads E _ _ _ (vec_rep_new E m'))|].
  destruct Hfra as (Hl1 & _ & _ & _ & Ha1). destruct Hfrb as (Hl2 & _ & _ & _ & Ha2).
  split; [congruence|].
  intros ops2 ts2 zs Hls Hfs.
  destruct (vec_run_rep E ops2 m' vec_new [] ts2 zs (vec_rep_new E m') Hfs Hls) as (v2 & m2 & E2 & Hv2 & Hfr2).
  exists v2, m2. split; [exact E2|]. split; [exact (vec_rep_reads E _ _ _ Hv2)|].
  destruct (frame_other E _ _ _ _ _ _ Hfr2 Hr (Hnew b)) as [Hr2 Hdj2].
  split; [exact (vec_rep_reads E _ _ _ Hr2)|].
  destruct (vec_destroy_rep E m2 v2 zs Hv2) as (m3 & E3 & Hl3 & Ha3 & Hb3 & _).
  assert (Hr3 : vec_rep E m3 b ys).
  { apply (vec_rep_mono E m2); [|exact Hr2]. intros bb cs Hbd Hbk. apply Hb3; [|exact Hbk].
    intros H. exact (Hdj2 bb Hbd H). }
  destruct (vec_destroy_rep E m3 _ ys Hr3) as (m4 & E4 & Hl4 & Ha4 & _).
  exists m3, m4. split; [exact E3|]. split; [exact E4|].
  destruct Hfr2 as (Hlf2 & _ & _ & _ & Haf2).
  split; [congruence|]. change (held vec_new) with 0 in *. lia.
Qed.
Print Assumptions C22_vector_move_assign.

(** C23: with two free slots nothing is reallocated and an own element can be pushed. *)
Theorem C23_vector_push_own_partial {A} (E : ety A) init ops (m0 : mem A) ts ys v m i x :
  list_run ops (init_list init) = Some (ts, ys) ->
  triv E = true \/ all_at_end ops (init_list init) = true ->
  vec_after E init ops m0 ts v m -> ys !! i = Some x -> v_size v + 2 <= v_cap v ->
  exists v' m', vec_push_own E v i m = Ok (v', m') /\ vec_reads v' m' (ys ++ [x]).
Proof.
  intros Hl Hf Ha Hi Hc.
  destruct (vec_after_inv E init ops m0 ts ys ts v m Hl Hf Ha) as (_ & Hr & _).
  pose proof (proj1 Hr) as Hs.
  rewrite (vec_push_own_rep E m v ys i x Hr Hi) by lia.
  destruct (vec_push_rep E m v ys x Hr) as (v' & m' & Eq & Hr' & _).
  exists v', m'. split; [exact Eq|]. exact (vec_rep_reads E _ _ _ Hr').
Qed.
Print Assumptions C23_vector_push_own_partial.

Example C23_example : exists v m, vec_after int None [VPush 1; VPush 2; VPush 3] mem0
  [false; false; false] v m /\ [1; 2; 3] !! 1 = Some 2 /\ v_size v + 2 <= v_cap v.
Proof.
  exists (Vec (Blk 2) 3 5), (Mem [None; None; Some [Live 1; Live 2; Live 3; Raw; Raw]] 0).
  split; [|split; [reflexivity|cbn; repeat constructor]]. exists vec_new, mem0. split; reflexivity.
Qed.

(** C23: in every other case the argument is read after its storage was released. *)
Theorem C23_vector_push_own_refuted {A} (E : ety A) init ops (m0 : mem A) ts ys v m i x :
  list_run ops (init_list init) = Some (ts, ys) ->
  triv E = true \/ all_at_end ops (init_list init) = true ->
  vec_after E init ops m0 ts v m -> ys !! i = Some x -> v_cap v < v_size v + 2 ->
  vec_push_own E v i m = UB UseAfterFree.
Proof.
  intros Hl Hf Ha Hi Hc.
  destruct (vec_after_inv E init ops m0 ts ys ts v m Hl Hf Ha) as (_ & Hr & _).
  pose proof (proj1 Hr) as Hs. apply (vec_push_own_ub E m v ys i x Hr Hi).
  pose proof (lookup_lt_Some _ _ _ Hi).
  destruct (vec_rep_cap E _ _ _ Hr) as [(-> & _)|H1]; [discriminate Hi|lia].
Qed.
Print Assumptions C23_vector_push_own_refuted.

Example C23_refuted_example : exists v m, vec_after int (Some [1; 2]) [] mem0 [] v m /\
  v_cap v < v_size v + 2 /\ vec_push_own int v 0 m = UB UseAfterFree.
Proof.
  exists (Vec (Blk 0) 2 3), (Mem [Some [Live 1; Live 2; Raw]] 0).
  split; [eexists _, _; split; reflexivity|]. split; [cbn; repeat constructor|reflexivity].
Qed.

(** C24: for a class type, every insertion before the end is undefined. *)
Theorem C24_vector_class_insert_refuted {A} (E : ety A) init ops (m0 : mem A) ts ys v m i a :
  triv E = false -> list_run ops (init_list init) = Some (ts, ys) ->
  all_at_end ops (init_list init) = true -> vec_after E init ops m0 ts v m ->
  i < length ys -> vec_insert E v i a m = UB DeadObject.
Proof.
  intros Ht Hl Hf Ha Hi.
  destruct (vec_after_inv E init ops m0 ts ys ts v m Hl (or_intror Hf) Ha) as (_ & Hr & _).
  exact (vec_insert_class E m v ys i a Ht Hr Hi).
Qed.
Print Assumptions C24_vector_class_insert_refuted.

(** C24: and so is every erasure before the end. *)
Theorem C24_vector_class_erase_refuted {A} (E : ety A) init ops (m0 : mem A) ts ys v m i :
  triv E = false -> list_run ops (init_list init) = Some (ts, ys) ->
  all_at_end ops (init_list init) = true -> vec_after E init ops m0 ts v m ->
  S i < length ys -> vec_erase E v i m = UB DeadObject.
Proof.
  intros Ht Hl Hf Ha Hi.
  destruct (vec_after_inv E init ops m0 ts ys ts v m Hl (or_intror Hf) Ha) as (_ & Hr & _).
  exact (vec_erase_class E m v ys i Ht Hr Hi).
Qed.
Print Assumptions C24_vector_class_erase_refuted.

Example C24_example : triv cls = false /\ all_at_end [VPush 1; VPush 2] [] = true /\
  list_run [VPush 1; VPush 2] [] = Some ([false; false], [1; 2]) /\
  exists v m, vec_after cls None [VPush 1; VPush 2] mem0 [false; false] v m /\
    vec_insert cls v 0 9 m = UB DeadObject.
Proof.
  split_and!; try reflexivity.
  exists (Vec (Blk 1) 2 3), (Mem [None; Some [Live 1; Live 2; Raw]] 0).
  split; [exists vec_new, mem0; split; reflexivity|reflexivity].
Qed.

(** C25 (and C20, C22 for several objects): any program over any number of vectors that
    constructs them empty or from values, copies vectors that own storage, moves by
    construction and assignment, and uses all other operations with insert and erase only at
    the end, runs without undefined behaviour for every element type; each vector reads as
    the list it stands for; and after destruction of all vectors no element and no allocation
    is left behind. *)
Theorem C25_vector_programs {A} (E : ety A) (p : list sop) (m0 : mem A) ls :
  lists_run p [] = Some ls -> sys_at_end p [] = true ->
  exists vs m m', sys_run E p [] m0 = Ok (vs, m) /\
    Forall2 (fun v l => vec_reads v m (fst l)) vs ls /\
    sys_end E vs m = Ok m' /\ leaks m' = leaks m0 /\ allocations m' = allocations m0.
Proof.
  intros Hl He.
  assert (H0 : sys_inv E m0 m0 [] []).
  { split; [constructor|]. split; [intros ? ? ? ? H; discriminate H|].
    split; [reflexivity|]. cbn. lia. }
  destruct (sys_run_inv E m0 p m0 [] [] ls H0 Hl (or_intror He)) as (vs & m & Er & Hinv).
  destruct (sys_end_inv E m0 vs m ls Hinv) as (m' & Ee & Hlk & Hal).
  exists vs, m, m'. split; [exact Er|]. split.
  { destruct Hinv as (Hit & _). eapply Forall2_impl; [exact Hit|].
    intros v l [Hr _]. exact (vec_rep_reads E _ _ _ Hr). }
  split; [exact Ee|]. split; assumption.
Qed.
Print Assumptions C25_vector_programs.

Example C25_example :
  lists_run [SNew; SOp 0 (VPush 1); SOp 0 (VPush 2); SCopy 0; SOp 1 VPop; SMove 0;
             SMoveAssign 0 1; SOp 1 (VPush 5); SOp 2 VShrink] [] =
    Some [([1], true); ([5], true); ([1; 2], true)] /\
  sys_at_end [SNew; SOp 0 (VPush 1); SOp 0 (VPush 2); SCopy 0; SOp 1 VPop; SMove 0;
             SMoveAssign 0 1; SOp 1 (VPush 5); SOp 2 VShrink] [] = true.
Proof. split; reflexivity. Qed.

(** C24 for trivial element types: the same for all programs, with insert and erase anywhere. *)
Theorem C24_vector_programs_trivial_partial {A} (E : ety A) (p : list sop) (m0 : mem A) ls :
  triv E = true -> lists_run p [] = Some ls ->
  exists vs m m', sys_run E p [] m0 = Ok (vs, m) /\
    Forall2 (fun v l => vec_reads v m (fst l)) vs ls /\
    sys_end E vs m = Ok m' /\ leaks m' = leaks m0 /\ allocations m' = allocations m0.
Proof.
  intros Ht Hl.
  assert (H0 : sys_inv E m0 m0 [] []).
  { split; [constructor|]. split; [intros ? ? ? ? H; discriminate H|].
    split; [reflexivity|]. cbn. lia. }
  destruct (sys_run_inv E m0 p m0 [] [] ls H0 Hl (or_introl Ht)) as (vs & m & Er & Hinv).
  destruct (sys_end_inv E m0 vs m ls Hinv) as (m' & Ee & Hlk & Hal).
  exists vs, m, m'. split; [exact Er|]. split.
  { destruct Hinv as (Hit & _). eapply Forall2_impl; [exact Hit|].
    intros v l [Hr _]. exact (vec_rep_reads E _ _ _ Hr). }
  split; [exact Ee|]. split; assumption.
Qed.
Print Assumptions C24_vector_programs_trivial_partial.

Example C24_programs_example : triv int = true /\
  lists_run [SOf [1; 2; 3]; SOp 0 (VInsert 0 9); SOp 0 (VErase 1); SCopy 0] [] =
    Some [([9; 2; 3], true); ([9; 2; 3], true)].
Proof. split; reflexivity. Qed.

(** C29 for Vector: == is equality of the contents. *)
Theorem C29_vector_eq {A} (E : ety A) (ne : A -> A -> bool) ia ib opa opb (m0 m1 m : mem A) ta tb xs ys a b :
  (forall x y, ne x y = false <-> x = y) ->
  list_run opa (init_list ia) = Some (ta, xs) -> triv E = true \/ all_at_end opa (init_list ia) = true ->
  list_run opb (init_list ib) = Some (tb, ys) -> triv E = true \/ all_at_end opb (init_list ib) = true ->
  vec_after E ia opa m0 ta a m1 -> vec_after E ib opb m1 tb b m ->
  exists r, vec_eq ne a b m = Ok r /\ (r = true <-> xs = ys).
Proof.
  intros Hne Hla Hfa Hlb Hfb Ha Hb.
  destruct (vec_after_inv E ia opa m0 ta xs ta a m1 Hla Hfa Ha) as (_ & Hra & _).
  destruct (vec_after_inv E ib opb m1 tb ys tb b m Hlb Hfb Hb) as (_ & Hrb & Hfr).
  assert (Hnew : disj a vec_new) by (intros ? _ H; discriminate H).
  destruct (frame_other E _ _ _ _ _ _ Hfr Hra Hnew) as [Hra2 _].
  exact (vec_eq_rep E ne m a b xs ys Hne Hra2 Hrb).
Qed.
Print Assumptions C29_vector_eq.

Example C29_vector_example : (forall x y, negb (Nat.eqb x y) = false <-> x = y) /\
  (let* (a, m) := vec_of_list int [1; 2] mem0 in
   let* (b, m) := vec_of_list int [1; 3] m in
   vec_eq (fun x y => negb (Nat.eqb x y)) a b m) = Ok false.
Proof.
  split; [|reflexivity]. intros x y. rewrite negb_false_iff. apply Nat.eqb_eq.
Qed.
