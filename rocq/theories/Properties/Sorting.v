(** Sorting (sort.hpp): properties C01-C09. *)
From Verif Require Import Base.Cpp Model.Sort Spec.SortSpec.
From Verif Require Import Proofs.SortLemmas Proofs.InsertionSort Proofs.MergeSort Proofs.HeapSort
  Proofs.QuickSort Proofs.TimSort.

(** A vector length representable in size_t. *)
Definition fits {A} (l : list A) : Prop := (Z.of_nat (length l) < size_mod)%Z.

(** Concrete data for the non-vacuity examples: records compared by key only. *)
Definition by_key (x y : nat * nat) : bool := Nat.ltb (fst x) (fst y).
Lemma by_key_swo : strict_weak_order by_key.
Proof.
  split; unfold by_key.
  - intros x. apply Nat.ltb_irrefl.
  - intros x y z. rewrite !Nat.ltb_lt. lia.
  - intros x y z. rewrite !Nat.ltb_ge. lia.
Qed.
Definition moved (x : nat * nat) : nat * nat := (0, 999).
Definition sample : list (nat * nat) := [(3,0); (1,1); (3,2); (2,3); (1,4); (0,5)].

(** C01: insertion_sort_by sorts every vector, stably. *)
Theorem C01_insertion_sort_stable {A} (mv : A -> A) (comp : A -> A -> bool) (l : list A) :
  strict_weak_order comp ->
  exists l', insertion_sort_by mv comp l = Ok l' /\ is_stable_sort_of comp l l'.
Proof.
  intros Hswo. destruct (insertion_sort_by_wp mv comp l) as (l' & E & Hp & Hs).
  exists l'. split; [exact E|]. split; [exact Hp|]. exact (Hs Hswo).
Qed.
Print Assumptions C01_insertion_sort_stable.

Example C01_example : strict_weak_order by_key /\
  insertion_sort_by moved by_key sample = Ok [(0,5); (1,1); (1,4); (2,3); (3,0); (3,2)].
Proof. split; [exact by_key_swo|reflexivity]. Qed.

(** C01: a stable sort is unique, so the theorem above determines the result. *)
Theorem C01_stable_sort_unique {A} (comp : A -> A -> bool) (l l1 l2 : list A) :
  strict_weak_order comp ->
  is_stable_sort_of comp l l1 -> is_stable_sort_of comp l l2 -> l1 = l2.
Proof.
  intros Hswo (P1 & S1 & T1) (P2 & S2 & T2).
  apply (stable_sort_unique comp l1 Hswo l2); [|exact S1|exact S2|].
  - rewrite <- P1. exact P2.
  - intros x. rewrite (T1 x). exact (T2 x).
Qed.
Print Assumptions C01_stable_sort_unique.

(** C02: merge_sort_by sorts positions left..right and touches nothing else. *)
Theorem C02_merge_sort_range {A} (comp : A -> A -> bool) (l : list A) (lft rgt fuel : nat) :
  strict_weak_order comp -> lft <= rgt -> rgt < length l -> rgt - lft < fuel ->
  exists l', merge_sort_by comp fuel l lft rgt = Ok l' /\ is_range_sort_of comp lft rgt l l'.
Proof.
  intros Hswo Hle Hlt Hf.
  destruct (merge_sort_seg_wp comp fuel (take lft l) (take (S rgt - lft) (drop lft l))
              (drop (S rgt) l) lft rgt) as (l' & E & seg' & [Hp Hs] & ->).
  - rewrite take_length. lia.
  - exact Hle.
  - rewrite take_length, drop_length. lia.
  - exact Hf.
  - rewrite <- (split_range l lft (S rgt)) in E by lia.
    eexists. split; [exact E|].
    exists (take lft l), (take (S rgt - lft) (drop lft l)), seg', (drop (S rgt) l).
    split; [apply split_range; lia|]. split; [reflexivity|].
    split; [rewrite take_length; lia|].
    split; [rewrite take_length, drop_length; lia|].
    split; [exact Hp|exact (Hs Hswo)].
Qed.
Print Assumptions C02_merge_sort_range.

Example C02_example : strict_weak_order by_key /\ 1 <= 4 /\ 4 < length sample /\ 4 - 1 < 6 /\
  merge_sort_by by_key 6 sample 1 4 = Ok [(3,0); (1,4); (1,1); (2,3); (3,2); (0,5)].
Proof. split; [exact by_key_swo|]. split; [lia|]. split; [simpl; lia|]. split; [lia|reflexivity]. Qed.

(** C03: heapsort_by sorts every vector. *)
Theorem C03_heapsort_sorts {A} (mv : A -> A) (comp : A -> A -> bool) (l : list A) :
  strict_weak_order comp ->
  exists l', heapsort_by mv comp l = Ok l' /\ is_sort_of comp l l'.
Proof.
  intros Hswo. destruct (heapsort_wp mv comp l) as (l' & E & Hp & Hs).
  exists l'. split; [exact E|]. split; [exact Hp|exact (Hs Hswo)].
Qed.
Print Assumptions C03_heapsort_sorts.

Example C03_example : strict_weak_order Nat.ltb /\
  heapsort_by S Nat.ltb [5;3;8;1;9;2;7;3;0;6] = Ok [0;1;2;3;3;5;6;7;8;9].
Proof. split; [exact ltb_swo|reflexivity]. Qed.

(** C04: quicksort_by sorts positions low..high and touches nothing else. *)
Theorem C04_quicksort_range {A} (mv : A -> A) (comp : A -> A -> bool) (l : list A)
    (low high fuel : nat) :
  strict_weak_order comp -> fits l -> low <= high -> high < length l -> high - low < fuel ->
  exists l', quicksort_by mv comp fuel l low high = Ok l' /\ is_range_sort_of comp low high l l'.
Proof.
  intros Hswo Hfit Hle Hlt Hf.
  destruct (quicksort_wp mv comp fuel l low high) as (l' & E & Hr & Hs); [left; exact Hlt|exact Hfit|exact Hf|].
  exists l'. split; [exact E|]. apply sorted_on_is_range; [lia|lia|exact Hr|exact (Hs Hswo)].
Qed.
Print Assumptions C04_quicksort_range.

Theorem C04_quicksort_sorts {A} (mv : A -> A) (comp : A -> A -> bool) (l : list A) :
  strict_weak_order comp -> fits l ->
  exists l', quicksort mv comp l = Ok l' /\ is_sort_of comp l l'.
Proof.
  intros Hswo Hfit. destruct (quicksort_full_wp mv comp l Hfit) as (l' & E & Hp & Hs).
  exists l'. split; [exact E|]. split; [exact Hp|exact (Hs Hswo)].
Qed.
Print Assumptions C04_quicksort_sorts.

Example C04_example : strict_weak_order Nat.ltb /\ fits [9;4;7;1;8;0] /\ 0 <= 3 /\ 3 < 6 /\
  quicksort_by S Nat.ltb 6 [9;4;7;1;8;0] 0 3 = Ok [1;4;7;9;8;0].
Proof.
  split; [exact ltb_swo|]. split; [reflexivity|]. split; [lia|]. split; [lia|reflexivity].
Qed.

(** C05: sort_unstable_by (introsort) sorts every vector. *)
Theorem C05_sort_unstable_sorts {A} (mv : A -> A) (comp : A -> A -> bool) (l : list A) :
  strict_weak_order comp -> fits l ->
  exists l', sort_unstable_by mv comp l = Ok l' /\ is_sort_of comp l l'.
Proof.
  intros Hswo Hfit. destruct (introsort_wp mv comp l Hfit) as (l' & E & Hp & Hs).
  exists l'. split; [exact E|]. split; [exact Hp|exact (Hs Hswo)].
Qed.
Print Assumptions C05_sort_unstable_sorts.

Example C05_example : strict_weak_order by_key /\ fits sample /\
  sort_unstable_by moved by_key sample = Ok [(0,5); (1,4); (1,1); (2,3); (3,0); (3,2)].
Proof. split; [exact by_key_swo|]. split; [reflexivity|reflexivity]. Qed.

(** C06: the claim "sort_by sorts every vector" is false: for every length above 32
    there is a vector of that length that sort leaves unsorted. *)
Theorem C06_sort_sorts_refuted (mv : nat -> nat) (n : nat) :
  32 < n ->
  exists l l', length l = n /\ strict_weak_order Nat.ltb /\
    sort_by mv Nat.ltb l = Ok l' /\ ~ sorted_by Nat.ltb l'.
Proof.
  intros Hn. destruct (timsort_bad mv n Hn) as (Hl & E & Hs).
  eexists _, _. split; [exact Hl|]. split; [exact ltb_swo|]. split; [exact E|exact Hs].
Qed.
Print Assumptions C06_sort_sorts_refuted.

(** C06, the part that holds: up to 32 elements sort_by sorts, and stably. *)
Theorem C06_sort_sorts_partial {A} (mv : A -> A) (comp : A -> A -> bool) (l : list A) :
  strict_weak_order comp -> length l <= 32 ->
  exists l', sort_by mv comp l = Ok l' /\ is_stable_sort_of comp l l'.
Proof.
  intros Hswo Hn. destruct (timsort_chunks_wp mv comp l Hswo) as (l' & E & Hc); [lia|].
  exists l'. split; [exact E|]. exact (chunk_sorted_small comp l l' Hswo Hn Hc).
Qed.
Print Assumptions C06_sort_sorts_partial.

Example C06_example : strict_weak_order by_key /\ length sample <= 32 /\
  sort_by moved by_key sample = Ok [(0,5); (1,1); (1,4); (2,3); (3,0); (3,2)].
Proof. split; [exact by_key_swo|]. split; [simpl; lia|reflexivity]. Qed.

(** C07: up to 64 elements the result is the concatenation of the stably sorted
    32-element chunks. *)
Theorem C07_sort_exact_effect {A} (mv : A -> A) (comp : A -> A -> bool) (l : list A) :
  strict_weak_order comp -> length l <= 64 ->
  exists l', sort_by mv comp l = Ok l' /\ length l' = length l /\
    Forall2 (is_stable_sort_of comp) (chunks 32 l) (chunks 32 l').
Proof.
  intros Hswo Hn. destruct (timsort_chunks_wp mv comp l Hswo Hn) as (l' & E & Hl & HF).
  exists l'. split; [exact E|]. split; [symmetry; exact Hl|].
  eapply Forall2_impl; [exact HF|]. intros c c' [Hp Hs]. split; [exact Hp|exact (Hs Hswo)].
Qed.
Print Assumptions C07_sort_exact_effect.

Example C07_example : strict_weak_order Nat.ltb /\ length (rev (seq 0 40)) <= 64 /\
  sort_by S Nat.ltb (rev (seq 0 40)) = Ok (seq 8 32 ++ seq 0 8).
Proof. split; [exact ltb_swo|]. split; [simpl; lia|vm_compute; reflexivity]. Qed.

(** C07: a vector that is already sorted is left unchanged, whatever its length. *)
Theorem C07_sort_keeps_sorted {A} (mv : A -> A) (comp : A -> A -> bool) (l : list A) :
  strict_weak_order comp -> sorted_by comp l -> sort_by mv comp l = Ok l.
Proof. exact (timsort_sorted_id mv comp l). Qed.
Print Assumptions C07_sort_keeps_sorted.

Example C07_example_sorted : sorted_by Nat.ltb (replicate 100 7).
Proof. apply sorted_by_repeat. Qed.

(** C08: for any comparison function the sorts terminate without undefined
    behaviour and permute the vector (so no moved-from value is left). *)
Theorem C08_insertion_sort_safe {A} (mv : A -> A) (comp : A -> A -> bool) (l : list A) :
  exists l', insertion_sort_by mv comp l = Ok l' /\ Permutation l l'.
Proof.
  destruct (insertion_sort_by_wp mv comp l) as (l' & E & Hp & _). exists l'. split; [exact E|exact Hp].
Qed.
Print Assumptions C08_insertion_sort_safe.

Theorem C08_merge_sort_safe {A} (comp : A -> A -> bool) (l : list A) (fuel : nat) :
  0 < length l -> length l <= fuel ->
  exists l', merge_sort_by comp fuel l 0 (length l - 1) = Ok l' /\ Permutation l l'.
Proof.
  intros Hl Hf.
  destruct (merge_sort_seg_wp comp fuel [] l [] 0 (length l - 1)) as (l' & E & seg' & [Hp _] & ->);
    [reflexivity|lia|lia|lia|].
  rewrite !app_nil_l, !app_nil_r in E. exists seg'. split; [exact E|exact Hp].
Qed.
Print Assumptions C08_merge_sort_safe.

Theorem C08_heapsort_safe {A} (mv : A -> A) (comp : A -> A -> bool) (l : list A) :
  exists l', heapsort_by mv comp l = Ok l' /\ Permutation l l'.
Proof.
  destruct (heapsort_wp mv comp l) as (l' & E & Hp & _). exists l'. split; [exact E|exact Hp].
Qed.
Print Assumptions C08_heapsort_safe.

Theorem C08_quicksort_safe {A} (mv : A -> A) (comp : A -> A -> bool) (l : list A) :
  fits l -> exists l', quicksort mv comp l = Ok l' /\ Permutation l l'.
Proof.
  intros Hf. destruct (quicksort_full_wp mv comp l Hf) as (l' & E & Hp & _).
  exists l'. split; [exact E|exact Hp].
Qed.
Print Assumptions C08_quicksort_safe.

Theorem C08_sort_unstable_safe {A} (mv : A -> A) (comp : A -> A -> bool) (l : list A) :
  fits l -> exists l', sort_unstable_by mv comp l = Ok l' /\ Permutation l l'.
Proof.
  intros Hf. destruct (introsort_wp mv comp l Hf) as (l' & E & Hp & _).
  exists l'. split; [exact E|exact Hp].
Qed.
Print Assumptions C08_sort_unstable_safe.

Theorem C08_sort_safe {A} (mv : A -> A) (comp : A -> A -> bool) (l : list A) :
  exists l', sort_by mv comp l = Ok l' /\ Permutation l l'.
Proof. exact (timsort_perm_wp mv comp l). Qed.
Print Assumptions C08_sort_safe.

Example C08_example : (* a comparator that is no order at all *)
  fits [3;1;2] /\ 0 < length [3;1;2] /\
  sort_unstable_by S (fun _ _ => true) [3;1;2] = Ok [2;1;3].
Proof. split; [reflexivity|]. split; [simpl; lia|reflexivity]. Qed.

(** C09: merge_sort_by is not stable: two equivalent elements are exchanged. *)
Theorem C09_merge_sort_stable_refuted :
  exists (l l' : list (nat * nat)), strict_weak_order by_key /\
    merge_sort_by by_key 5 l 0 (length l - 1) = Ok l' /\ ~ stable_wrt by_key l l'.
Proof.
  exists [(1,0); (1,1)], [(1,1); (1,0)]. split; [exact by_key_swo|]. split; [reflexivity|].
  intros H. specialize (H (1,0)). vm_compute in H. discriminate H.
Qed.
Print Assumptions C09_merge_sort_stable_refuted.
