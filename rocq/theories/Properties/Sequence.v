(** Array, ArrVec and the views (sequence.hpp): properties C26-C30 and C83-C87. *)
From Verif Require Import Base.Cpp Base.Mem Model.Vector Model.Sequence.
From Verif Require Import Spec.VectorSpec Spec.SequenceSpec Proofs.MemLemmas Proofs.VectorProofs Proofs.SequenceProofs.

(** Element types for the examples: a class type whose moved-from value is 0, and int. *)
Definition cls : ety nat := Ety false (fun _ => 0).
Definition int : ety nat := Ety true (fun x => x).

(** C26: an ArrVec of any element type follows the bounded list through every history. *)
Theorem C26_arrvec_is_bounded_list {A} (E : ety A) cap init ops (m0 : mem A) ts ys :
  length (init_list init) <= cap -> blist_run cap ops (init_list init) = Some (ts, ys) ->
  (exists v m, av_after E cap init ops m0 ts v m) /\
  (forall ts' v m, av_after E cap init ops m0 ts' v m ->
     ts' = ts /\ av_reads v m ys /\ length ys <= cap).
Proof.
  intros Hc Hl. split.
  - destruct (av_after_rep E cap init ops m0 ts ys Hc Hl) as (v & m & Ha & _). exists v, m. exact Ha.
  - intros ts' v m Ha.
    destruct (av_after_inv E cap init ops m0 ts ys ts' v m Hc Hl Ha) as (-> & Hr & _).
    split; [reflexivity|]. split; [exact (av_rep_reads E cap m v ys Hr)|].
    destruct Hr as (rest & _ & _ & _ & <-). apply Nat.le_add_r.
Qed.
Print Assumptions C26_arrvec_is_bounded_list.

Example C26_example :
  blist_run 3 [APop; APush 1; APush 2; AInsert 1 7; APush 9; AInsert 0 9; AErase 3; AErase 0; ASet 0 5] [] =
    Some ([true; false; false; false; true; true; true; false; false], [5; 2]).
Proof. reflexivity. Qed.

(** C26: each operation throws exactly when the bounded list does. *)
Theorem C26_arrvec_throws {A} (E : ety A) cap init ops (m0 : mem A) ts ys v m o :
  length (init_list init) <= cap -> blist_run cap ops (init_list init) = Some (ts, ys) ->
  av_after E cap init ops m0 ts v m -> blist_op cap o ys <> LUndef ->
  (av_step E cap o v m = Throw <-> blist_op cap o ys = LThrow).
Proof.
  intros Hc Hl Ha Ho.
  destruct (av_after_inv E cap init ops m0 ts ys ts v m Hc Hl Ha) as (_ & Hr & _).
  pose proof (av_step_rep E cap o m v ys Hr) as Hs.
  destruct (blist_op cap o ys) as [l| |].
  - destruct Hs as (v' & m' & -> & _). split; discriminate.
  - split; auto.
  - contradiction.
Qed.
Print Assumptions C26_arrvec_throws.

Example C26_throws_example : blist_op 2 (@APush nat 3) [1; 2] = LThrow /\
  blist_op 3 (AInsert 3 9) [1; 2] = LThrow /\ blist_op 3 (AInsert 2 9) [1; 2] = LOk [1; 2; 9].
Proof. split_and!; reflexivity. Qed.

(** C26: lifetimes.  Destruction after any history leaves no object and no storage behind. *)
Theorem C26_arrvec_lifetimes {A} (E : ety A) cap init ops (m0 : mem A) ts ys v m :
  length (init_list init) <= cap -> blist_run cap ops (init_list init) = Some (ts, ys) ->
  av_after E cap init ops m0 ts v m ->
  exists m', av_destroy E v m = Ok m' /\ leaks m' = leaks m0 /\ allocations m' = allocations m0.
Proof.
  intros Hc Hl Ha.
  destruct (av_after_inv E cap init ops m0 ts ys ts v m Hc Hl Ha) as (_ & Hr & Hlk & _ & Hal).
  destruct (av_destroy_rep E cap m v ys Hr) as (m' & Ed & Hl' & Ha').
  exists m'. split; [exact Ed|]. split; [congruence|].
  rewrite Hal in Ha'. injection Ha' as ->. reflexivity.
Qed.
Print Assumptions C26_arrvec_lifetimes.

Example C26_lifetimes_example : exists v m,
  av_after cls 3 (Some [1; 2]) [AInsert 1 7; AErase 0] mem0 [false; false] v m /\
  m = Mem [Some [Live 7; Live 2; Raw]] 0.
Proof.
  exists (AV 0 2). eexists. split; [|reflexivity].
  exists (AV 0 2), (Mem [Some [Live 1; Live 2; Raw]] 0). split; reflexivity.
Qed.

(** C26: the initializer-list constructor throws exactly for too many elements. *)
Theorem C26_arrvec_init_throws {A} (E : ety A) cap xs (m : mem A) :
  av_of_list E cap xs m = Throw <-> cap < length xs.
Proof.
  split.
  - intros H. destruct (decide (length xs <= cap)) as [Hc|Hc].
    + destruct (av_of_list_rep E cap xs m Hc) as (v & m' & Eq & _). congruence.
    + apply Nat.nle_gt. exact Hc.
  - intros H. unfold av_of_list. rewrite decide_True by exact H. reflexivity.
Qed.
Print Assumptions C26_arrvec_init_throws.

Example C26_init_example : av_of_list int 1 [1; 2] mem0 = Throw.
Proof. reflexivity. Qed.

(** C27: copy construction of an ArrVec; the copy and the original are then independent. *)
Theorem C27_arrvec_copy {A} (E : ety A) cap init ops (m0 : mem A) ts ys v m :
  length (init_list init) <= cap -> blist_run cap ops (init_list init) = Some (ts, ys) ->
  av_after E cap init ops m0 ts v m ->
  exists c m', av_copy E cap v m = Ok (c, m') /\ av_reads c m' ys /\ av_reads v m' ys /\
    leaks m' = leaks m /\
    forall ops2 ts2 zs, blist_run cap ops2 ys = Some (ts2, zs) ->
      (exists c2 m2, av_run E cap ops2 c m' = Ok (ts2, c2, m2) /\ av_reads c2 m2 zs /\ av_reads v m2 ys) /\
      (exists v2 m2, av_run E cap ops2 v m' = Ok (ts2, v2, m2) /\ av_reads v2 m2 zs /\ av_reads c m2 ys).
Proof.
  intros Hc Hl Ha.
  destruct (av_after_inv E cap init ops m0 ts ys ts v m Hc Hl Ha) as (_ & Hr & _).
  destruct (av_copy_rep E cap m v ys Hr) as (c & m' & Ec & Hrc & Hrv & Hne & Hf).
  exists c, m'. split; [exact Ec|]. split; [exact (av_rep_reads E cap _ _ _ Hrc)|].
  split; [exact (av_rep_reads E cap _ _ _ Hrv)|]. split; [exact (proj1 Hf)|].
  intros ops2 ts2 zs Hl2. split.
  - destruct (av_run_rep E cap ops2 m' c ys ts2 zs Hrc Hl2) as (c2 & cs & E2 & Hb2 & Hr2).
    eexists c2, _. split; [exact E2|]. split; [exact (av_rep_reads E cap _ _ _ Hr2)|].
    apply (av_rep_reads E cap). apply (av_rep_mono E cap m'); [|exact Hrv].
    intros cs' Hcs'. apply blk_upd_ne; [exact (not_eq_sym Hne)|exact Hcs'].
  - destruct (av_run_rep E cap ops2 m' v ys ts2 zs Hrv Hl2) as (v2 & cs & E2 & Hb2 & Hr2).
    eexists v2, _. split; [exact E2|]. split; [exact (av_rep_reads E cap _ _ _ Hr2)|].
    apply (av_rep_reads E cap). apply (av_rep_mono E cap m'); [|exact Hrc].
    intros cs' Hcs'. apply blk_upd_ne; [exact Hne|exact Hcs'].
Qed.
Print Assumptions C27_arrvec_copy.

(** C27: copy assignment between distinct ArrVecs of any contents. *)
Theorem C27_arrvec_copy_assign {A} (E : ety A) cap ia ib opa opb (m0 m1 m : mem A) ta tb xs ys a b :
  length (init_list ia) <= cap -> blist_run cap opa (init_list ia) = Some (ta, xs) ->
  length (init_list ib) <= cap -> blist_run cap opb (init_list ib) = Some (tb, ys) ->
  av_after E cap ia opa m0 ta a m1 -> av_after E cap ib opb m1 tb b m ->
  exists a' m', av_copy_assign E a b m = Ok (a', m') /\ av_reads a' m' ys /\ av_reads b m' ys /\
    leaks m' = leaks m.
Proof.
  intros Hca Hla Hcb Hlb Ha Hb.
  destruct (av_after_inv E cap ia opa m0 ta xs ta a m1 Hca Hla Ha) as (_ & Hra & _).
  destruct (av_after_inv E cap ib opb m1 tb ys tb b m Hcb Hlb Hb) as (_ & Hrb & Hf).
  destruct (fresh_av_rep E cap _ _ _ _ _ Hf Hra) as [Hra2 Hne].
  destruct (av_copy_assign_rep E cap m a b xs ys Hra2 Hrb Hne) as (cs & Eq & _ & H1 & H2).
  eexists _, _. split; [exact Eq|]. split; [exact (av_rep_reads E cap _ _ _ H1)|].
  split; [exact (av_rep_reads E cap _ _ _ H2)|apply leaks_upd].
Qed.
Print Assumptions C27_arrvec_copy_assign.

(** C27: move construction and move assignment of ArrVecs. *)
Theorem C27_arrvec_move {A} (E : ety A) cap init ops (m0 : mem A) ts ys v m :
  length (init_list init) <= cap -> blist_run cap ops (init_list init) = Some (ts, ys) ->
  av_after E cap init ops m0 ts v m ->
  exists c v' m', av_move E cap v m = Ok (c, v', m') /\ av_reads c m' ys /\ av_reads v' m' [].
Proof.
  intros Hc Hl Ha.
  destruct (av_after_inv E cap init ops m0 ts ys ts v m Hc Hl Ha) as (_ & Hr & _).
  destruct (av_move_rep E cap m v ys Hr) as (c & m' & rest & Eq & Hrc & _).
  eexists c, _, m'. split; [exact Eq|]. split; [exact (av_rep_reads E cap _ _ _ Hrc)|].
  split; [reflexivity|]. split; [|reflexivity]. intros i x Hx. discriminate Hx.
Qed.
Print Assumptions C27_arrvec_move.

Theorem C27_arrvec_move_assign {A} (E : ety A) cap ia ib opa opb (m0 m1 m : mem A) ta tb xs ys a b :
  length (init_list ia) <= cap -> blist_run cap opa (init_list ia) = Some (ta, xs) ->
  length (init_list ib) <= cap -> blist_run cap opb (init_list ib) = Some (tb, ys) ->
  av_after E cap ia opa m0 ta a m1 -> av_after E cap ib opb m1 tb b m ->
  exists a' b' m', av_move_assign E a b m = Ok (a', b', m') /\ av_reads a' m' ys /\ av_reads b' m' [].
Proof.
  intros Hca Hla Hcb Hlb Ha Hb.
  destruct (av_after_inv E cap ia opa m0 ta xs ta a m1 Hca Hla Ha) as (_ & Hra & _).
  destruct (av_after_inv E cap ib opb m1 tb ys tb b m Hcb Hlb Hb) as (_ & Hrb & Hf).
  destruct (fresh_av_rep E cap _ _ _ _ _ Hf Hra) as [Hra2 Hne].
  destruct (av_move_assign_rep E cap m a b xs ys Hra2 Hrb Hne) as (m' & rest & Eq & Hr & _).
  eexists _, _, m'. split; [exact Eq|]. split; [exact (av_rep_reads E cap _ _ _ Hr)|].
  split; [reflexivity|]. split; [|reflexivity]. intros i x Hx. discriminate Hx.
Qed.
Print Assumptions C27_arrvec_move_assign.

Example C27_arrvec_example : exists a b m1 m,
  av_after cls 3 (Some [1; 2]) [] mem0 [] a m1 /\ av_after cls 3 None [APush 5] m1 [false] b m /\
  length (init_list (Some [1; 2])) <= 3.
Proof.
  exists (AV 0 2), (AV 1 1), (Mem [Some [Live 1; Live 2; Raw]] 0),
    (Mem [Some [Live 1; Live 2; Raw]; Some [Live 5; Raw; Raw]] 0).
  split; [eexists _, _; split; reflexivity|]. split; [eexists _, _; split; reflexivity|].
  simpl. repeat constructor.
Qed.

(** C27: copies and moves of Arrays, construction and assignment, and their lifetimes. *)
Theorem C27_array_copy_move {A} (E : ety A) n ia ib wa wb (m0 m1 m : mem A) a b :
  length (arr_init n ia) = n -> Forall (fun w => fst w < n) wa ->
  length (arr_init n ib) = n -> Forall (fun w => fst w < n) wb ->
  arr_after E n ia wa m0 a m1 -> arr_after E n ib wb m1 b m ->
  let ys := list_writes wb (arr_init n ib) in
  arr_reads n b m ys /\
  (exists c m', arr_copy E n b m = Ok (c, m') /\ arr_reads n c m' ys /\ arr_reads n b m' ys /\
     leaks m' = leaks m) /\
  (exists m', arr_copy_assign E n a b m = Ok m' /\ arr_reads n a m' ys /\ arr_reads n b m' ys /\
     leaks m' = leaks m) /\
  (exists c m', arr_move E n b m = Ok (c, m') /\ arr_reads n c m' ys /\ leaks m' = leaks m) /\
  (exists m', arr_move_assign E n a b m = Ok m' /\ arr_reads n a m' ys /\ leaks m' = leaks m) /\
  (exists m', arr_destroy E n b m = Ok m' /\ leaks m' = leaks m1 /\ allocations m' = allocations m1).
Proof.
  intros Hna Hwa Hnb Hwb Ha Hb ys.
  destruct (arr_after_inv E n ia wa m0 a m1 Hna Hwa Ha) as [Hra _].
  destruct (arr_after_inv E n ib wb m1 b m Hnb Hwb Hb) as [Hrb Hf].
  destruct (fresh_arr_rep n _ _ _ _ _ Hf Hra) as [Hra2 Hne]. fold ys in Hrb.
  split; [exact (arr_rep_reads n _ _ _ Hrb)|].
  split.
  { destruct (arr_copy_rep E n m b ys Hrb) as (c & m' & Eq & H1 & H2 & _ & Hl).
    exists c, m'. split; [exact Eq|]. split; [exact (arr_rep_reads n _ _ _ H1)|].
    split; [exact (arr_rep_reads n _ _ _ H2)|exact (proj1 Hl)]. }
  split.
  { destruct (arr_copy_assign_rep E n m a b _ ys Hra2 Hrb Hne) as (m' & Eq & H1 & H2 & Hl).
    exists m'. split; [exact Eq|]. split; [exact (arr_rep_reads n _ _ _ H1)|].
    split; [exact (arr_rep_reads n _ _ _ H2)|exact Hl]. }
  split.
  { destruct (arr_move_rep E n m b ys Hrb) as (c & m' & Eq & H1 & _ & _ & Hl).
    exists c, m'. split; [exact Eq|]. split; [exact (arr_rep_reads n _ _ _ H1)|exact Hl]. }
  split.
  { destruct (arr_move_assign_rep E n m a b _ ys Hra2 Hrb Hne) as (m' & Eq & H1 & _ & Hl).
    exists m'. split; [exact Eq|]. split; [exact (arr_rep_reads n _ _ _ H1)|exact Hl]. }
  destruct (arr_destroy_rep E n m b ys Hrb) as (m' & Eq & Hl & Hal). destruct Hf as (Hl0 & _ & Hal0).
  exists m'. split; [exact Eq|]. split; [congruence|].
  rewrite Hal0 in Hal. injection Hal as ->. reflexivity.
Qed.
Print Assumptions C27_array_copy_move.

Example C27_array_example : exists a b m1 m,
  arr_after cls 2 (inl 0) [(1, 4)] mem0 a m1 /\ arr_after cls 2 (inr [7; 8]) [(0, 9)] m1 b m /\
  list_writes [(0, 9)] (arr_init 2 (inr [7; 8])) = [9; 8].
Proof.
  exists 0, 1, (Mem [Some [Live 0; Live 4]] 0), (Mem [Some [Live 0; Live 4]; Some [Live 9; Live 8]] 0).
  split; [eexists; split; reflexivity|]. split; [eexists; split; reflexivity|reflexivity].
Qed.

(** C28: conversion of a full ArrVec<A,k> to ArrVec<A,cap> keeps size and elements. *)
Theorem C28_arrvec_convert_partial {A} (E : ety A) cap k init ops (m0 : mem A) ts ys v m :
  length (init_list init) <= k -> blist_run k ops (init_list init) = Some (ts, ys) ->
  av_after E k init ops m0 ts v m -> k <= cap -> length ys = k ->
  exists c m', av_convert E cap k v m = Ok (c, m') /\ av_reads c m' ys /\ av_reads v m' ys.
Proof.
  intros Hc Hl Ha Hk Hfull.
  destruct (av_after_inv E k init ops m0 ts ys ts v m Hc Hl Ha) as (_ & Hr & _).
  destruct (av_convert_full E cap k m v ys Hr Hfull Hk) as (c & m' & Eq & H1 & H2).
  exists c, m'. split; [exact Eq|].
  split; [exact (av_rep_reads E cap _ _ _ H1)|exact (av_rep_reads E k _ _ _ H2)].
Qed.
Print Assumptions C28_arrvec_convert_partial.

Example C28_example : exists v m, av_after int 2 (Some [1; 2]) [] mem0 [] v m /\ length [1; 2] = 2.
Proof. eexists _, _. split; [eexists _, _; split; reflexivity|reflexivity]. Qed.

(** C28: for every source that is not full, the conversion is wrong: it never returns the
    source's elements, and for class-type elements it reads an object that does not exist. *)
Theorem C28_arrvec_convert_refuted {A} (E : ety A) cap k init ops (m0 : mem A) ts ys v m :
  length (init_list init) <= k -> blist_run k ops (init_list init) = Some (ts, ys) ->
  av_after E k init ops m0 ts v m -> k <= cap -> length ys < k ->
  (forall c m', av_convert E cap k v m = Ok (c, m') -> ~ av_reads c m' ys) /\
  (triv E = false -> av_convert E cap k v m = UB Uninit).
Proof.
  intros Hc Hl Ha Hk Hlt. split.
  - intros c m' Eq (Hs & _). unfold av_convert in Eq. destruct (alloc m cap) as [b m1].
    destruct (for_up k 0 _ m1) as [m2| | |] in Eq; try discriminate Eq.
    injection Eq as <- _. simpl in Hs. rewrite Hs in Hlt. exact (Nat.lt_irrefl _ Hlt).
  - intros Ht. destruct (av_after_inv E k init ops m0 ts ys ts v m Hc Hl Ha) as (_ & Hr & _).
    exact (av_convert_class E cap k m v ys Ht Hr Hlt Hk).
Qed.
Print Assumptions C28_arrvec_convert_refuted.

Example C28_refuted_example : exists v m, av_after int 2 (Some [1; 2]) [APop] mem0 [false] v m /\
  av_convert int 3 2 v m = Ok (AV 1 2, Mem [Some [Live 1; Live 2]; Some [Live 1; Live 2; Raw]] 0).
Proof.
  exists (AV 0 1), (Mem [Some [Live 1; Live 2]] 0). split; [|reflexivity].
  exists (AV 0 2), (Mem [Some [Live 1; Live 2]] 0). split; reflexivity.
Qed.

(** C29, Array and ArrVec: [ne] is the element type's operator!=. *)
Theorem C29_array_eq {A} (E : ety A) (ne : A -> A -> bool) n ia ib wa wb (m0 m1 m : mem A) a b :
  (forall x y, ne x y = false <-> x = y) ->
  length (arr_init n ia) = n -> Forall (fun w => fst w < n) wa ->
  length (arr_init n ib) = n -> Forall (fun w => fst w < n) wb ->
  arr_after E n ia wa m0 a m1 -> arr_after E n ib wb m1 b m ->
  exists r, arr_eq n ne a b m = Ok r /\
    (r = true <-> list_writes wa (arr_init n ia) = list_writes wb (arr_init n ib)).
Proof.
  intros Hne Hna Hwa Hnb Hwb Ha Hb.
  destruct (arr_after_inv E n ia wa m0 a m1 Hna Hwa Ha) as [Hra _].
  destruct (arr_after_inv E n ib wb m1 b m Hnb Hwb Hb) as [Hrb Hf].
  destruct (fresh_arr_rep n _ _ _ _ _ Hf Hra) as [Hra2 _].
  apply arr_eq_ok; [exact Hne|exact (eq_sym (proj2 Hra))|exact (eq_sym (proj2 Hrb))|..];
    intros i x Hx; eapply arr_rep_get; eassumption.
Qed.
Print Assumptions C29_array_eq.

Theorem C29_arrvec_eq {A} (E : ety A) (ne : A -> A -> bool) cap ia ib opa opb (m0 m1 m : mem A) ta tb xs ys a b :
  (forall x y, ne x y = false <-> x = y) ->
  length (init_list ia) <= cap -> blist_run cap opa (init_list ia) = Some (ta, xs) ->
  length (init_list ib) <= cap -> blist_run cap opb (init_list ib) = Some (tb, ys) ->
  av_after E cap ia opa m0 ta a m1 -> av_after E cap ib opb m1 tb b m ->
  exists r, av_eq ne a b m = Ok r /\ (r = true <-> xs = ys).
Proof.
  intros Hne Hca Hla Hcb Hlb Ha Hb.
  destruct (av_after_inv E cap ia opa m0 ta xs ta a m1 Hca Hla Ha) as (_ & Hra & _).
  destruct (av_after_inv E cap ib opb m1 tb ys tb b m Hcb Hlb Hb) as (_ & Hrb & Hf).
  destruct (fresh_av_rep E cap _ _ _ _ _ Hf Hra) as [Hra2 _].
  exact (av_rep_eq E cap m a b xs ys ne Hne Hra2 Hrb).
Qed.
Print Assumptions C29_arrvec_eq.

Example C29_example :
  arr_eq 2 (fun x y => negb (Nat.eqb x y)) 0 1 (Mem [Some [Live 1; Live 2]; Some [Live 1; Live 3]] 0) = Ok false /\
  av_eq (fun x y => negb (Nat.eqb x y)) (AV 0 1) (AV 1 1)
    (Mem [Some [Live 1; Live 2]; Some [Live 1; Live 3]] 0) = Ok true /\
  (forall x y, negb (Nat.eqb x y) = false <-> x = y).
Proof.
  split; [reflexivity|]. split; [reflexivity|]. intros x y.
  rewrite negb_false_iff. apply Nat.eqb_eq.
Qed.

(** C30: a view of k elements starting at element off of a Vector, ArrVec or Array reads
    exactly those elements, and after a later assignment to an element it reads the new
    value. *)
Theorem C30_view_of_vector {A} (E : ety A) init ops (m0 : mem A) ts ys v m b off k w :
  list_run ops (init_list init) = Some (ts, ys) -> triv E = true \/ all_at_end ops (init_list init) = true ->
  vec_after E init ops m0 ts v m -> v_data v = Blk b -> off + k <= length ys ->
  view_over (CAt b off) k w ->
  view_reads w m (take k (drop off ys)) /\
  forall i a, i < length ys -> exists m', vec_set E v i a m = Ok m' /\
    view_reads w m' (take k (drop off (<[i := a]> ys))).
Proof.
  intros Hl Hte Ha Hd Hk Hw.
  destruct (vec_after_inv E init ops m0 ts ys ts v m Hl Hte Ha) as (_ & Hr & _).
  assert (Hrd : forall m v ys, vec_rep E m v ys -> v_data v = Blk b ->
    forall i x, ys !! i = Some x -> read m b i = Ok x).
  { intros m' v' ys' Hr' Hd' i x Hx. pose proof (vec_rep_get E m' v' ys' i x Hr' Hx) as H.
    unfold vec_get, pread in H. rewrite Hd' in H. exact H. }
  split; [exact (view_over_reads m b off k w ys (Hrd m v ys Hr Hd) Hk Hw)|].
  intros i a Hi. destruct (vec_set_rep E m v ys i a Hr Hi) as (m' & Eq & Hr' & _).
  exists m'. split; [exact Eq|].
  apply (view_over_reads m' b off k w); [exact (Hrd m' v _ Hr' Hd)|rewrite insert_length; exact Hk|exact Hw].
Qed.
Print Assumptions C30_view_of_vector.

Theorem C30_view_of_arrvec {A} (E : ety A) cap init ops (m0 : mem A) ts ys v m off k w :
  length (init_list init) <= cap -> blist_run cap ops (init_list init) = Some (ts, ys) ->
  av_after E cap init ops m0 ts v m -> off + k <= length ys -> view_over (CAt (av_blk v) off) k w ->
  view_reads w m (take k (drop off ys)) /\
  forall i a, i < length ys -> exists m', av_set E v i a m = Ok m' /\
    view_reads w m' (take k (drop off (<[i := a]> ys))).
Proof.
  intros Hc Hl Ha Hk Hw.
  destruct (av_after_inv E cap init ops m0 ts ys ts v m Hc Hl Ha) as (_ & Hr & _).
  split.
  - apply (view_over_reads m (av_blk v) off k w ys); [|exact Hk|exact Hw].
    intros i x Hx. exact (av_rep_get E cap m v ys i x Hr Hx).
  - intros i a Hi. destruct (av_set_rep E cap m v ys i a Hr Hi) as (cs & Eq & Hr').
    eexists. split; [exact Eq|].
    apply (view_over_reads _ (av_blk v) off k w); [|rewrite insert_length; exact Hk|exact Hw].
    intros j x Hx. exact (av_rep_get E cap _ v _ j x Hr' Hx).
Qed.
Print Assumptions C30_view_of_arrvec.

Theorem C30_view_of_array {A} (E : ety A) n init ws (m0 : mem A) b m off k w :
  length (arr_init n init) = n -> Forall (fun w => fst w < n) ws ->
  arr_after E n init ws m0 b m -> off + k <= n -> view_over (CAt b off) k w ->
  let ys := list_writes ws (arr_init n init) in
  view_reads w m (take k (drop off ys)) /\
  forall i a, i < n -> exists m', arr_set E b i a m = Ok m' /\
    view_reads w m' (take k (drop off (<[i := a]> ys))).
Proof.
  intros Hn Hws Ha Hk Hw ys.
  destruct (arr_after_inv E n init ws m0 b m Hn Hws Ha) as [Hr _]. fold ys in Hr.
  assert (Hyl : length ys = n) by exact (proj2 Hr).
  split.
  - apply (view_over_reads m b off k w ys); [|rewrite Hyl; exact Hk|exact Hw].
    intros i x Hx. exact (arr_rep_get n m b ys i x Hr Hx).
  - intros i a Hi. destruct (arr_set_rep E n m b ys i a Hr Hi) as (cs & Eq & Hr').
    eexists. split; [exact Eq|].
    apply (view_over_reads _ b off k w); [|rewrite insert_length, Hyl; exact Hk|exact Hw].
    intros j x Hx. exact (arr_rep_get n _ b _ j x Hr' Hx).
Qed.
Print Assumptions C30_view_of_array.

(** C30: the pointer constructors throw exactly for null and a positive size. *)
Theorem C30_view_null_throws (cap k : nat) (data : cptr) :
  (arrview_new k data = Throw <-> data = CNull /\ 0 < k) /\
  (avview_new cap data k = Throw <-> data = CNull /\ 0 < k) /\
  (vview_new data k = Throw <-> data = CNull /\ 0 < k) /\
  (data <> CNull -> exists w1 w2 w3,
     arrview_new k data = Ok w1 /\ avview_new cap data k = Ok w2 /\ vview_new data k = Ok w3).
Proof.
  unfold arrview_new, avview_new, vview_new. destruct data as [|b off].
  - destruct (decide (0 < k)) as [Hk|Hk]; repeat split; auto; try discriminate;
      try (intros [_ ?]; contradiction); intros H; contradiction.
  - split; [|split; [|split]]; try (split; [discriminate|intros [H _]; discriminate H]).
    intros _. eexists _, _, _. repeat split.
Qed.
Print Assumptions C30_view_null_throws.

Example C30_example : exists v m w, av_after cls 3 (Some [1; 2; 3]) [] mem0 [] v m /\
  view_over (CAt (av_blk v) 1) 2 w /\ view_iter w m = Ok [2; 3].
Proof.
  exists (AV 0 3), (Mem [Some [Live 1; Live 2; Live 3]] 0), (View (CAt 0 1) 2 None).
  split; [eexists _, _; split; reflexivity|]. split; [|reflexivity].
  change (View (CAt 0 1) 2 None) with (vview_of (View (CAt 0 1) 2 (Some 2))).
  apply over_vconv, over_array. reflexivity.
Qed.

(** C83: v.insert(i, v[j]) on an ArrVec inserts the value of element j if j < i. *)
Theorem C83_arrvec_insert_own_partial {A} (E : ety A) cap init ops (m0 : mem A) ts ys v m i j x :
  length (init_list init) <= cap -> blist_run cap ops (init_list init) = Some (ts, ys) ->
  av_after E cap init ops m0 ts v m -> i <= length ys -> length ys < cap -> ys !! j = Some x -> j < i ->
  exists v' m', av_insert_own E cap v i j m = Ok (v', m') /\ av_reads v' m' (take i ys ++ x :: drop i ys).
Proof.
  intros Hc Hl Ha Hi Hlt Hx Hj.
  destruct (av_after_inv E cap init ops m0 ts ys ts v m Hc Hl Ha) as (_ & Hr & _).
  rewrite (av_insert_own_rep E cap m v ys i j x Hr Hi Hlt Hx Hj).
  destruct (av_insert_rep E cap m v ys i x Hr Hi Hlt) as (cs & Eq & Hr').
  eexists _, _. split; [exact Eq|exact (av_rep_reads E cap _ _ _ Hr')].
Qed.
Print Assumptions C83_arrvec_insert_own_partial.

Example C83_example : exists v m, av_after cls 4 (Some [1; 2; 3]) [] mem0 [] v m /\
  av_insert_own cls 4 v 2 0 m = Ok (AV 0 4, Mem [Some [Live 1; Live 2; Live 1; Live 3]] 0).
Proof.
  exists (AV 0 3), (Mem [Some [Live 1; Live 2; Live 3; Raw]] 0). split; [|reflexivity].
  exists (AV 0 3), (Mem [Some [Live 1; Live 2; Live 3; Raw]] 0). split; reflexivity.
Qed.

(** C83 is false otherwise: {1,2,3}.insert(0, v[1]) inserts 1, not 2; with class elements and
    j = i the argument has been destroyed. *)
Theorem C83_arrvec_insert_own_refuted : exists v m,
  av_after int 4 (Some [1; 2; 3]) [] mem0 [] v m /\
  (exists v' m', av_insert_own int 4 v 0 1 m = Ok (v', m') /\ av_reads v' m' [1; 1; 2; 3]) /\
  exists v' m', av_after cls 4 (Some [1; 2; 3]) [] mem0 [] v' m' /\
    av_insert_own cls 4 v' 1 1 m' = UB Uninit.
Proof.
  exists (AV 0 3), (Mem [Some [Live 1; Live 2; Live 3; Raw]] 0).
  split; [exists (AV 0 3), (Mem [Some [Live 1; Live 2; Live 3; Raw]] 0); split; reflexivity|].
  split.
  - exists (AV 0 4), (Mem [Some [Live 1; Live 1; Live 2; Live 3]] 0). split; [reflexivity|].
    split; [reflexivity|]. split; [|reflexivity].
    intros [|[|[|[|i]]]] x Hx; try (injection Hx as <-; reflexivity). discriminate Hx.
  - exists (AV 0 3), (Mem [Some [Live 1; Live 2; Live 3; Raw]] 0). split; [|reflexivity].
    exists (AV 0 3), (Mem [Some [Live 1; Live 2; Live 3; Raw]] 0). split; reflexivity.
Qed.
Print Assumptions C83_arrvec_insert_own_refuted.

(** C83, Vector: inserting v[1] at 0 inserts v[0] when there is room, and reads released
    storage when the vector grows. *)
Theorem C83_vector_insert_own_refuted : exists v m,
  vec_after int (Some [1; 2]) [VReserve 8] mem0 [false] v m /\
  (exists v' m', vec_insert_own int v 0 1 m = Ok (v', m') /\ vec_reads v' m' [1; 1; 2]) /\
  exists v' m', vec_after int (Some [1; 2]) [] mem0 [] v' m' /\
    vec_insert_own int v' 0 1 m' = UB UseAfterFree.
Proof.
  exists (Vec (Blk 1) 2 8), (Mem [None; Some [Live 1; Live 2; Raw; Raw; Raw; Raw; Raw; Raw]] 0).
  split; [exists (Vec (Blk 0) 2 3), (Mem [Some [Live 1; Live 2; Raw]] 0); split; reflexivity|].
  split.
  - exists (Vec (Blk 1) 3 8), (Mem [None; Some [Live 1; Live 1; Live 2; Raw; Raw; Raw; Raw; Raw]] 0).
    split; [reflexivity|]. split; [reflexivity|]. split; [|reflexivity].
    intros [|[|[|i]]] x Hx; try (injection Hx as <-; reflexivity). discriminate Hx.
  - exists (Vec (Blk 0) 2 3), (Mem [Some [Live 1; Live 2; Raw]] 0). split; [|reflexivity].
    exists (Vec (Blk 0) 2 3), (Mem [Some [Live 1; Live 2; Raw]] 0). split; reflexivity.
Qed.
Print Assumptions C83_vector_insert_own_refuted.

(** C84: after moving from an ArrVec of trivial elements both objects are destroyed cleanly. *)
Theorem C84_arrvec_move_lifetimes_partial {A} (E : ety A) cap init ops (m0 : mem A) ts ys v m :
  triv E = true ->
  length (init_list init) <= cap -> blist_run cap ops (init_list init) = Some (ts, ys) ->
  av_after E cap init ops m0 ts v m ->
  exists c v' m1 m2 m3, av_move E cap v m = Ok (c, v', m1) /\ av_destroy E c m1 = Ok m2 /\
    av_destroy E v' m2 = Ok m3 /\ leaks m3 = leaks m0 /\ allocations m3 = allocations m0.
Proof.
  intros Ht Hc Hl Ha.
  destruct (av_after_inv E cap init ops m0 ts ys ts v m Hc Hl Ha) as (_ & Hr & Hlk & _ & Hal).
  destruct (av_move_clean E cap m v ys Ht Hr) as (c & v' & m1 & m2 & m3 & E1 & E2 & E3 & Hl3 & Ha3).
  exists c, v', m1, m2, m3. repeat (split; [assumption|]). split; [congruence|].
  rewrite Hal in Ha3. injection Ha3 as ->. reflexivity.
Qed.
Print Assumptions C84_arrvec_move_lifetimes_partial.

Example C84_example : exists v m, triv int = true /\ av_after int 3 (Some [1; 2]) [] mem0 [] v m.
Proof. eexists _, _. split; [reflexivity|]. eexists _, _. split; reflexivity. Qed.

(** C84 is false for every class type: every element moved from is never destroyed, in move
    construction and in move assignment. *)
Theorem C84_arrvec_move_leaks_refuted {A} (E : ety A) cap init ops (m0 : mem A) ts ys v m :
  triv E = false ->
  length (init_list init) <= cap -> blist_run cap ops (init_list init) = Some (ts, ys) ->
  av_after E cap init ops m0 ts v m ->
  exists c v' m1 m2, av_move E cap v m = Ok (c, v', m1) /\ av_destroy E v' m1 = Ok m2 /\
    leaks m2 = leaks m + length ys.
Proof.
  intros Ht Hc Hl Ha.
  destruct (av_after_inv E cap init ops m0 ts ys ts v m Hc Hl Ha) as (_ & Hr & _).
  destruct (av_move_rep E cap m v ys Hr) as (c & m1 & rest & E1 & _ & _ & Hl1 & _ & Hb & Hv & _).
  destruct (av_destroy_moved E m1 (av_blk v) (mvd E <$> ys) rest Ht Hb Hv) as (m2 & E2 & Hl2 & _).
  eexists c, _, m1, m2. split; [exact E1|]. split; [exact E2|].
  rewrite Hl2, Hl1, fmap_length. reflexivity.
Qed.
Print Assumptions C84_arrvec_move_leaks_refuted.

Theorem C84_arrvec_move_assign_leaks_refuted {A} (E : ety A) cap ia ib opa opb (m0 m1 m : mem A) ta tb xs ys a b :
  triv E = false ->
  length (init_list ia) <= cap -> blist_run cap opa (init_list ia) = Some (ta, xs) ->
  length (init_list ib) <= cap -> blist_run cap opb (init_list ib) = Some (tb, ys) ->
  av_after E cap ia opa m0 ta a m1 -> av_after E cap ib opb m1 tb b m ->
  exists a' b' m2 m3, av_move_assign E a b m = Ok (a', b', m2) /\ av_destroy E b' m2 = Ok m3 /\
    leaks m3 = leaks m + length ys.
Proof.
  intros Ht Hca Hla Hcb Hlb Ha Hb.
  destruct (av_after_inv E cap ia opa m0 ta xs ta a m1 Hca Hla Ha) as (_ & Hra & _).
  destruct (av_after_inv E cap ib opb m1 tb ys tb b m Hcb Hlb Hb) as (_ & Hrb & Hf).
  destruct (fresh_av_rep E cap _ _ _ _ _ Hf Hra) as [Hra2 Hne].
  destruct (av_move_assign_rep E cap m a b xs ys Hra2 Hrb Hne) as (m2 & rest & Eq & _ & Hl2 & Hbk & Hv & _).
  destruct (av_destroy_moved E m2 (av_blk b) (mvd E <$> ys) rest Ht Hbk Hv) as (m3 & E3 & Hl3 & _).
  eexists _, _, m2, m3. split; [exact Eq|]. split; [exact E3|].
  rewrite Hl3, Hl2, fmap_length. reflexivity.
Qed.
Print Assumptions C84_arrvec_move_assign_leaks_refuted.

Example C84_refuted_example : triv cls = false /\ exists v m, av_after cls 3 (Some [1; 2]) [] mem0 [] v m.
Proof. split; [reflexivity|]. eexists _, _, _, _. split; reflexivity. Qed.

(** C85: default-constructed views are empty, except ... *)
Theorem C85_default_view_partial {A} (cap : nat) (m : mem A) :
  view_reads (avview_default cap) m [] /\ view_reads vview_default m [] /\
  view_reads (arrview_default 0) m [].
Proof.
  repeat split; intros i x Hx; discriminate Hx.
Qed.
Print Assumptions C85_default_view_partial.

(** ... an ArrayView<A,n>() with n > 0: it has size n, and every access is undefined. *)
Theorem C85_default_arrayview_refuted {A} (n : nat) (m : mem A) : 0 < n ->
  w_size (arrview_default n) = n /\ (forall i, view_get (arrview_default n) i m = UB NullDeref) /\
  view_iter (arrview_default n) m = UB NullDeref.
Proof.
  intros Hn. destruct n as [|n]; [inversion Hn|]. split; [reflexivity|]. split; reflexivity.
Qed.
Print Assumptions C85_default_arrayview_refuted.

Example C85_example : 0 < 2. Proof. repeat constructor. Qed.

(** C86: == of views built from a pointer holds exactly for the same start and size. *)
Theorem C86_view_eq_partial (cap n k k' : nat) b b' off off' :
  let p := CAt b off in let q := CAt b' off' in
  (exists v w, arrview_new n p = Ok v /\ arrview_new n q = Ok w /\ (arrview_eq v w = true <-> p = q)) /\
  (exists v w, avview_new cap p k = Ok v /\ avview_new cap q k' = Ok w /\
     (avview_eq v w = true <-> p = q /\ k = k')) /\
  (exists v w r, vview_new p k = Ok v /\ vview_new q k' = Ok w /\ vview_eq v w = Ok r /\
     (r = true <-> p = q /\ k = k')).
Proof.
  intros p q.
  assert (Hp : cptr_eqb p q = true <-> p = q).
  { unfold p, q; simpl. rewrite andb_true_iff, !Nat.eqb_eq. split; [intros [-> ->]; reflexivity|].
    intros [= -> ->]. split; reflexivity. }
  split; [|split].
  - eexists _, _. split; [reflexivity|]. split; [reflexivity|exact Hp].
  - eexists _, _. split; [reflexivity|]. split; [reflexivity|].
    unfold avview_eq. simpl w_data. simpl w_size. rewrite andb_true_iff, Nat.eqb_eq, Hp. reflexivity.
  - unfold vview_eq. eexists _, _, (cptr_eqb p q && (k =? k')).
    split; [reflexivity|]. split; [reflexivity|].
    simpl w_data. simpl w_size. simpl w_cap. fold p q. split.
    + destruct (cptr_eqb p q); simpl; [|reflexivity]. destruct (k =? k'); reflexivity.
    + rewrite andb_true_iff, Nat.eqb_eq, Hp. reflexivity.
Qed.
Print Assumptions C86_view_eq_partial.

Example C86_example : exists v w, vview_new (CAt 0 1) 2 = Ok v /\ vview_new (CAt 0 1) 2 = Ok w /\
  vview_eq v w = Ok true.
Proof. eexists _, _. repeat split. Qed.

(** C86 is false for a VectorView built from an ArrayView or ArrVecView: comparing it with any
    view of the same elements, itself included, reads an uninitialised field. *)
Theorem C86_vectorview_eq_refuted (data : cptr) (k : nat) (v w : view) :
  view_over data k v -> view_over data k w ->
  vview_eq (vview_of v) w = UB IndetPtr /\ vview_eq (vview_of v) (vview_of v) = UB IndetPtr.
Proof.
  intros Hv Hw. destruct (view_over_fields _ _ _ Hv) as [Hd Hs].
  destruct (view_over_fields _ _ _ Hw) as [Hd' Hs'].
  assert (Hp : cptr_eqb data data = true) by (destruct data; simpl; rewrite ?Nat.eqb_refl; reflexivity).
  unfold vview_eq, vview_of; simpl. rewrite Hd, Hs, Hd', Hs', Hp, Nat.eqb_refl. split; reflexivity.
Qed.
Print Assumptions C86_vectorview_eq_refuted.

Example C86_refuted_example : exists w, view_over (CAt 0 0) 2 w.
Proof. eexists. apply over_array. reflexivity. Qed.

(** C87: resize to at most the current size keeps the first n elements (trivial types), and
    ArrVec::resize throws exactly beyond the capacity. *)
Theorem C87_arrvec_resize_partial {A} (E : ety A) cap init ops (m0 : mem A) ts ys v m n :
  length (init_list init) <= cap -> blist_run cap ops (init_list init) = Some (ts, ys) ->
  av_after E cap init ops m0 ts v m ->
  (av_resize cap v n = Throw <-> cap < n) /\
  (triv E = true -> n <= length ys ->
   exists v', av_resize cap v n = Ok v' /\ av_reads v' m (take n ys)).
Proof.
  intros Hc Hl Ha.
  destruct (av_after_inv E cap init ops m0 ts ys ts v m Hc Hl Ha) as (_ & Hr & _).
  unfold av_resize. split.
  - destruct (decide (cap < n)); split; try discriminate; auto; contradiction.
  - intros Ht Hn. assert (Hle : n <= cap).
    { destruct (Hr) as (rest & _ & _ & _ & <-). etransitivity; [exact Hn|apply Nat.le_add_r]. }
    rewrite decide_False by (apply Nat.le_ngt; exact Hle). eexists. split; [reflexivity|].
    exact (av_rep_reads E cap _ _ _ (av_resize_shrink E cap m v ys n Ht Hr Hn)).
Qed.
Print Assumptions C87_arrvec_resize_partial.

Theorem C87_vector_resize_partial {A} (E : ety A) init ops (m0 : mem A) ts ys v m n :
  triv E = true -> list_run ops (init_list init) = Some (ts, ys) -> vec_after E init ops m0 ts v m ->
  n <= length ys -> 0 < length ys ->
  exists v', vec_resize E v n m = Ok (v', m) /\ vec_reads v' m (take n ys).
Proof.
  intros Ht Hl Ha Hn Hp.
  destruct (vec_after_inv E init ops m0 ts ys ts v m Hl (or_introl Ht) Ha) as (_ & Hr & _).
  destruct (vec_resize_shrink E m v ys n Ht Hr Hn Hp) as [Eq Hr'].
  eexists. split; [exact Eq|exact (vec_rep_reads E _ _ _ Hr')].
Qed.
Print Assumptions C87_vector_resize_partial.

Example C87_example : exists v m, av_after int 3 (Some [1; 2]) [] mem0 [] v m /\
  exists v' m', vec_after int (Some [1; 2]) [] mem0 [] v' m'.
Proof. eexists _, _. split; [eexists _, _; split; reflexivity|]. eexists _, _, _, _. split; reflexivity. Qed.

(** C87 is false for class types: growing exposes an element that does not exist, shrinking
    leaks the elements cut off (ArrVec, every such case) ... *)
Theorem C87_arrvec_resize_refuted {A} (E : ety A) cap init ops (m0 : mem A) ts ys v m n :
  triv E = false ->
  length (init_list init) <= cap -> blist_run cap ops (init_list init) = Some (ts, ys) ->
  av_after E cap init ops m0 ts v m -> n <= cap ->
  exists v', av_resize cap v n = Ok v' /\ av_size v' = n /\
    (length ys < n -> av_get v' (length ys) m = UB Uninit) /\
    (n <= length ys -> exists m', av_destroy E v' m = Ok m' /\ leaks m' = leaks m + (length ys - n)).
Proof.
  intros Ht Hc Hl Ha Hn.
  destruct (av_after_inv E cap init ops m0 ts ys ts v m Hc Hl Ha) as (_ & Hr & _).
  unfold av_resize. rewrite decide_False by (apply Nat.le_ngt; exact Hn).
  eexists. split; [reflexivity|]. split; [reflexivity|]. split.
  - intros Hlt. exact (av_resize_grow_class E cap m v ys n Ht Hr Hlt Hn).
  - intros Hle. exact (av_resize_leak E cap m v ys n Ht Hr Hle).
Qed.
Print Assumptions C87_arrvec_resize_refuted.

(** ... and with trivial types the new elements of a Vector are uninitialised. *)
Theorem C87_vector_resize_refuted : exists v m v' m',
  vec_after int (Some [1; 2]) [] mem0 [] v m /\ vec_resize int v 5 m = Ok (v', m') /\
  v_size v' = 5 /\ vec_get v' 2 m' = UB Uninit.
Proof.
  exists (Vec (Blk 0) 2 3), (Mem [Some [Live 1; Live 2; Raw]] 0).
  exists (Vec (Blk 1) 5 6), (Mem [None; Some [Live 1; Live 2; Raw; Raw; Raw; Raw]] 0).
  split; [exists (Vec (Blk 0) 2 3), (Mem [Some [Live 1; Live 2; Raw]] 0); split; reflexivity|].
  split; [reflexivity|]. split; reflexivity.
Qed.
Print Assumptions C87_vector_resize_refuted.
