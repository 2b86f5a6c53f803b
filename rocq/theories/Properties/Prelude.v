(** The sequence functions (prelude.hpp): properties C36-C52, C91 and C92. *)
From Verif Require Import Base.Cpp Base.Mem Model.Vector Model.Sequence Model.Prelude.
From Verif Require Import Spec.VectorSpec Spec.SequenceSpec Spec.PreludeSpec.
From Verif Require Import Proofs.VectorProofs Proofs.SequenceProofs Proofs.PreludeProofs
  Proofs.PreludeSeqProofs Proofs.PreludeViewProofs.
From Coq Require Import Sorted.

(** ** Arguments for the examples *)

(** Every Array, ArrVec and Vector whose reads give [xs] is an argument holding [xs]. *)
Lemma array_holds {A} (m : mem A) n b xs : arr_reads n b m xs -> holds m (src_arr n b) xs.
Proof. intros (-> & Hr & _). split; [reflexivity|]. split; [reflexivity|]. exact Hr. Qed.
Lemma arrvec_holds {A} (m : mem A) cap v xs : av_reads v m xs -> length xs <= cap ->
  holds m (src_av cap v) xs.
Proof. intros (Hl & Hr & _) Hc. split; [exact Hl|]. split; [exact Hc|]. exact Hr. Qed.
Lemma vector_holds {A} (m : mem A) v s xs : vec_reads v m xs -> src_vec v = Ok s -> holds m s xs.
Proof.
  intros (Hl & Hr & _). unfold src_vec. destruct (v_data v) as [| |b] eqn:Ed; intros Hs; try discriminate;
    injection Hs as <-; (split; [exact Hl|]); (split; [exact I|]); intros i x Hi; specialize (Hr i x Hi);
    unfold vec_get in Hr; rewrite Ed in Hr; exact Hr.
Qed.

(** An Array {1,2,3}, an ArrVec of capacity 4 holding {4,5}, a Vector {6}, and an Array {7,8,9}. *)
Definition ex_mem : mem nat :=
  Mem [Some [Live 1; Live 2; Live 3]; Some [Live 4; Live 5; Raw; Raw]; Some [Live 6]; Some [Live 7; Live 8; Live 9]] 0.
Definition ex_arr : src := src_arr 3 0.
Definition ex_av : src := src_av 4 (AV 1 2).
Definition ex_vec : src := Src KVector (CAt 2 0) 1.
Definition ex_arr2 : src := src_arr 3 3.
Ltac rows := repeat (apply List.Forall2_cons || apply List.Forall2_nil).
Ltac show_holds := split; [reflexivity|]; split; [simpl; lia|]; intros [|[|[|[|]]]] x Hx; simpl in Hx; try discriminate;
  injection Hx as <-; reflexivity.
Lemma ex_arr_holds : holds ex_mem ex_arr [1; 2; 3]. Proof. show_holds. Qed.
Lemma ex_av_holds : holds ex_mem ex_av [4; 5]. Proof. show_holds. Qed.
Lemma ex_vec_holds : holds ex_mem ex_vec [6].
Proof. split; [reflexivity|]. split; [exact I|]. intros [|[|]] x Hx; simpl in Hx; try discriminate. injection Hx as <-. reflexivity. Qed.
Lemma ex_arr2_holds : holds ex_mem ex_arr2 [7; 8; 9]. Proof. show_holds. Qed.
Lemma ex_vec_is_vector : src_vec (Vec (Blk 2) 1 1) = Ok ex_vec. Proof. reflexivity. Qed.

Definition cls : ety nat := Ety false (fun _ => 0).
Definition int : ety nat := Ety true (fun x => x).

Lemma ex_zips : zips [[1; 2; 3]; [4; 5]] [[1; 4]; [2; 5]].
Proof.
  split; [|split].
  - intros l Hl. rewrite !elem_of_cons in Hl. destruct Hl as [->|[->|Hl]]; [simpl; lia..|]. by apply elem_of_nil in Hl.
  - exists [4; 5]. split; [by right; left|reflexivity].
  - intros [|[|i]] r Hr; simpl in Hr; try discriminate; injection Hr as <-; by repeat constructor.
Qed.

(** ** C36: map and map_with_index *)

(** Whatever the callback does, map ends like the in-order list map of the zipped rows. *)
Theorem C36_map {A B W} (E : ety B) d (f : list A -> W -> res (B * W)) ss xss rs ma w mb :
  Forall2 (holds ma) ss xss -> zips xss rs -> assignable E (nary_return (s_kind <$> ss)) ->
  same_outcome (fun '(ys, w1) '(r, w2, mb') => w1 = w2 /\ yields mb (nary_return (s_kind <$> ss)) ys r mb')
    (mapW f rs w) (map_ E d f ss ma w mb).
Proof. exact (map_ok E d f ss xss rs ma w mb). Qed.
Print Assumptions C36_map.

Theorem C36_map_with_index {A B W} (E : ety B) d (f : nat -> list A -> W -> res (B * W)) ss xss rs ma w mb :
  Forall2 (holds ma) ss xss -> zips xss rs -> assignable E (nary_return (s_kind <$> ss)) ->
  same_outcome (fun '(ys, w1) '(r, w2, mb') => w1 = w2 /\ yields mb (nary_return (s_kind <$> ss)) ys r mb')
    (mapW (fun '(i, r) => f i r) (indexed 0 rs) w) (map_with_index E d f ss ma w mb).
Proof. exact (map_with_index_ok E d f ss xss rs ma w mb). Qed.
Print Assumptions C36_map_with_index.

Example C36_example : Forall2 (holds ex_mem) [ex_arr; ex_av] [[1; 2; 3]; [4; 5]] /\
  zips [[1; 2; 3]; [4; 5]] [[1; 4]; [2; 5]] /\ assignable int (nary_return (s_kind <$> [ex_arr; ex_av])) /\
  nary_return (s_kind <$> [ex_arr; ex_av]) = KArrVec 3 /\
  mapW (fun r w => Ok (sum_list r, w ++ r)) [[1; 4]; [2; 5]] [] = Ok ([5; 7], [1; 4; 2; 5]).
Proof.
  split; [rows; [apply ex_arr_holds|apply ex_av_holds]|]. split; [exact ex_zips|].
  split; [by left|]. split; reflexivity.
Qed.

(** ** C91: results of class type (refuted) *)

(** map into an ArrVec or Vector assigns to storage that holds no object: undefined for every
    class type and every call with at least one row. *)
Theorem C91_map_class_type_refuted {A B W} (E : ety B) d (f : list A -> W -> res (B * W)) ss xss r0 rs ma w mb y w1 :
  triv E = false -> ct_size (nary_return (s_kind <$> ss)) = None ->
  Forall2 (holds ma) ss xss -> zips xss (r0 :: rs) -> f r0 w = Ok (y, w1) ->
  map_ E d f ss ma w mb = UB DeadObject.
Proof. exact (map_class E d f ss xss r0 rs ma w mb y w1). Qed.
Print Assumptions C91_map_class_type_refuted.

Theorem C91_from_function_class_type_refuted {B W} (E : ety B) d n (f : nat -> W -> res (B * W)) w mb y w1 :
  triv E = false -> 0 < n -> f 0 w = Ok (y, w1) ->
  from_function E d (Dy n) f w mb = UB DeadObject.
Proof. exact (from_function_class E d n f w mb y w1). Qed.
Print Assumptions C91_from_function_class_type_refuted.

Theorem C91_append_class_type_refuted {A} (E : ety A) d s ss x xs xss m mb :
  triv E = false -> ct_size (append_return (s_kind <$> (s :: ss))) = None ->
  Forall2 (holds m) (s :: ss) ((x :: xs) :: xss) ->
  append_ E d (seq 0 (length (s :: ss))) (s :: ss) m mb = UB DeadObject.
Proof. exact (append_class E d s ss x xs xss m mb). Qed.
Print Assumptions C91_append_class_type_refuted.

Theorem C91_concat_class_type_refuted {A} (E : ety A) d ko ki s ss x xs xss m mb :
  triv E = false -> ct_size (concat_return ko ki) = None ->
  nholds m (NSrc ko ki (s :: ss)) ((x :: xs) :: xss) ->
  concat_ E d (NSrc ko ki (s :: ss)) m mb = UB DeadObject.
Proof. exact (concat_class E d ko ki s ss x xs xss m mb). Qed.
Print Assumptions C91_concat_class_type_refuted.

(** With an Array result every element exists before it is assigned. *)
Theorem C91_map_class_type_partial {A B W} (E : ety B) d (f : list A -> W -> res (B * W)) ss xss rs ma w mb n :
  nary_return (s_kind <$> ss) = KArray n -> Forall2 (holds ma) ss xss -> zips xss rs ->
  same_outcome (fun '(ys, w1) '(r, w2, mb') => w1 = w2 /\ yields mb (KArray n) ys r mb')
    (mapW f rs w) (map_ E d f ss ma w mb).
Proof.
  intros Hk Hs Hz. rewrite <- Hk. apply (map_ok E d f ss xss rs ma w mb Hs Hz). right. exists n. exact Hk.
Qed.
Print Assumptions C91_map_class_type_partial.

Example C91_example : triv cls = false /\ ct_size (nary_return (s_kind <$> [ex_arr; ex_av])) = None /\
  nary_return (s_kind <$> [ex_arr; ex_arr2]) = KArray 3 /\
  map_ cls 0 (fun r (w : unit) => Ok (sum_list r, w)) [ex_arr; ex_av] ex_mem tt mem0 = UB DeadObject /\
  append_ cls 0 [0; 1] [ex_arr; ex_av] ex_mem mem0 = UB DeadObject /\
  concat_ cls 0 (NSrc (KArrVec 5) (KArray 3) [ex_arr; ex_arr2]) ex_mem mem0 = UB DeadObject.
Proof. split_and!; reflexivity. Qed.

(** ** C37: filter *)
Theorem C37_filter {A W} (E : ety A) (f : A -> W -> res (bool * W)) s xs m w mb : holds m s xs ->
  same_outcome (fun '(ys, w1) '(r, w2, mb') => w1 = w2 /\ yields mb (filter_return (s_kind s)) ys r mb')
    (filterW f xs w) (filter_ E f s m w mb).
Proof. exact (filter_ok E f s xs m w mb). Qed.
Print Assumptions C37_filter.

(** A predicate without effects: the sublist of the satisfying elements; no throw. *)
Theorem C37_filter_pure {A W} (E : ety A) (f : A -> bool) s xs m (w : W) mb : holds m s xs ->
  exists r mb', filter_ E (fun x w => Ok (f x, w)) s m w mb = Ok (r, w, mb') /\
    yields mb (filter_return (s_kind s)) (List.filter f xs) r mb'.
Proof.
  intros Hs. pose proof (filter_ok E (fun x w => Ok (f x, w)) s xs m w mb Hs) as H.
  rewrite filterW_pure in H. destruct (filter_ _ _ _ _ _ _) as [[[r w1] mb']| | |]; try contradiction.
  destruct H as [<- Hy]. exists r, mb'. split; [reflexivity|exact Hy].
Qed.
Print Assumptions C37_filter_pure.

Example C37_example : holds ex_mem ex_arr [1; 2; 3] /\ List.filter Nat.odd [1; 2; 3] = [1; 3] /\
  filter_return (s_kind ex_arr) = KArrVec 3.
Proof. split; [exact ex_arr_holds|]. split; reflexivity. Qed.

(** ** C38: folds *)
Theorem C38_foldl {A B W} (f : B -> A -> W -> res (B * W)) y s xs ma w : holds ma s xs ->
  foldl f y s ma w = foldlW f y xs w.
Proof. exact (foldl_ok f y s xs ma w). Qed.
Print Assumptions C38_foldl.

Theorem C38_foldr {A B W} (f : A -> B -> W -> res (B * W)) y s xs ma w : holds ma s xs ->
  foldr_ f y s ma w = foldrW f y xs w.
Proof. exact (foldr_ok f y s xs ma w). Qed.
Print Assumptions C38_foldr.

(** Functions without effects: the usual folds. *)
Theorem C38_folds_pure {A B W} (f : B -> A -> B) (g : A -> B -> B) y s xs ma (w : W) : holds ma s xs ->
  foldl (fun b a w => Ok (f b a, w)) y s ma w = Ok (fold_left f xs y, w) /\
  foldr_ (fun a b w => Ok (g a b, w)) y s ma w = Ok (fold_right g y xs, w).
Proof.
  intros Hs. rewrite (foldl_ok _ y s xs ma w Hs), (foldr_ok _ y s xs ma w Hs). clear Hs. split.
  - revert y. induction xs as [|x xs IH]; intros y; [reflexivity|]. simpl. apply IH.
  - induction xs as [|x xs IH]; [reflexivity|]. simpl. rewrite IH. reflexivity.
Qed.
Print Assumptions C38_folds_pure.

Example C38_example : foldl (fun b a w => Ok (b - a, w ++ [a])) 10 ex_arr ex_mem [] = Ok (4, [1; 2; 3]) /\
  foldr_ (fun a b w => Ok (2 * b + a, w ++ [a])) 10 ex_arr ex_mem [] = Ok (97, [3; 2; 1]).
Proof. split; reflexivity. Qed.

(** ** C39, C40: append *)

(** Under every evaluation order: the arguments in the order they were evaluated. *)
Theorem C40_append_any_order {A} (E : ety A) d order ss xss yss m mb : Forall2 (holds m) ss xss ->
  Permutation order (seq 0 (length ss)) -> Forall2 (fun p ys => xss !! p = Some ys) order yss ->
  assignable E (append_return (s_kind <$> ss)) ->
  exists r mb', append_ E d order ss m mb = Ok (r, mb') /\
    yields mb (append_return (s_kind <$> ss)) (concat yss) r mb'.
Proof. exact (append_ok E d order ss xss yss m mb). Qed.
Print Assumptions C40_append_any_order.

Lemma in_order {A} (xss : list (list A)) : Forall2 (fun p ys => xss !! p = Some ys) (seq 0 (length xss)) xss.
Proof.
  apply Forall2_same_length_lookup. split; [apply seq_length|]. intros i p ys Hp Hy.
  apply lookup_seq in Hp as [-> _]. exact Hy.
Qed.

(** Left to right: the concatenation. *)
Theorem C40_append_left_to_right {A} (E : ety A) d ss xss m mb : Forall2 (holds m) ss xss ->
  assignable E (append_return (s_kind <$> ss)) ->
  exists r mb', append_ E d (seq 0 (length ss)) ss m mb = Ok (r, mb') /\
    yields mb (append_return (s_kind <$> ss)) (concat xss) r mb'.
Proof.
  intros Hs Ha. apply (append_ok E d _ ss xss xss m mb Hs); [reflexivity| |exact Ha].
  rewrite (Forall2_length _ _ _ Hs). apply in_order.
Qed.
Print Assumptions C40_append_left_to_right.

Example C40_example : Forall2 (holds ex_mem) [ex_arr; ex_av; ex_vec] [[1; 2; 3]; [4; 5]; [6]] /\
  Permutation [2; 0; 1] (seq 0 3) /\
  Forall2 (fun p ys => [[1; 2; 3]; [4; 5]; [6]] !! p = Some ys) [2; 0; 1] [[6]; [1; 2; 3]; [4; 5]] /\
  assignable int (append_return (s_kind <$> [ex_arr; ex_av; ex_vec])) /\
  append_return (s_kind <$> [ex_arr; ex_av]) = KArrVec 7.
Proof.
  split_and!; [rows; [apply ex_arr_holds|apply ex_av_holds|apply ex_vec_holds]| |by repeat constructor|by left|done].
  change (seq 0 3) with ([0; 1] ++ [2]). rewrite <- Permutation_cons_append. reflexivity.
Qed.

(** C39, false of the code: for all arguments that do not commute, right-to-left evaluation
    (allowed for function arguments) gives the wrong order. *)
Theorem C39_append_order_refuted {A} (E : ety A) d sa sb xs ys m mb : holds m sa xs -> holds m sb ys ->
  xs ++ ys <> ys ++ xs -> assignable E (append_return [s_kind sa; s_kind sb]) ->
  exists order r mb' zs, Permutation order [0; 1] /\ append_ E d order [sa; sb] m mb = Ok (r, mb') /\
    cont_reads r mb' zs /\ zs <> xs ++ ys.
Proof.
  intros Ha Hb Hne Has.
  destruct (append_ok E d [1; 0] [sa; sb] [xs; ys] [ys; xs] m mb) as (r & mb' & Heq & (_ & Hr & _)).
  - rows; [exact Ha|exact Hb].
  - apply perm_swap.
  - by repeat constructor.
  - exact Has.
  - exists [1; 0], r, mb', (ys ++ xs). split; [apply perm_swap|]. split; [exact Heq|].
    split; [simpl in Hr; rewrite app_nil_r in Hr; exact Hr|]. intros Hz. apply Hne. symmetry. exact Hz.
Qed.
Print Assumptions C39_append_order_refuted.

(** Proved part of C39: no order matters when at most one argument is not empty. *)
Theorem C39_append_order_partial {A} (E : ety A) d order ss xss xs k m mb : Forall2 (holds m) ss xss ->
  Permutation order (seq 0 (length ss)) -> xss !! k = Some xs -> (forall j ys, j <> k -> xss !! j = Some ys -> ys = []) ->
  assignable E (append_return (s_kind <$> ss)) ->
  exists r mb', append_ E d order ss m mb = Ok (r, mb') /\
    yields mb (append_return (s_kind <$> ss)) (concat xss) r mb'.
Proof.
  intros Hs Hp Hk Ho Ha.
  assert (Hsel : exists yss, Forall2 (fun p ys => xss !! p = Some ys) order yss).
  { assert (Hin : forall p, p ∈ order -> p < length xss).
    { intros p Hin. rewrite Hp in Hin. apply elem_of_seq in Hin. rewrite <- (Forall2_length _ _ _ Hs). lia. }
    clear Hp. induction order as [|p order IH]; [by exists []|].
    destruct IH as [yss IH]; [intros q Hq; apply Hin; by right|].
    destruct (lookup_lt_is_Some_2 xss p) as [ys Hys]; [apply Hin; by left|]. exists (ys :: yss). by constructor. }
  destruct Hsel as [yss Hy].
  assert (Hone : forall o zss, NoDup o -> k ∈ o -> Forall2 (fun p ys => xss !! p = Some ys) o zss -> concat zss = xs).
  { assert (Hnone : forall o zss, k ∉ o -> Forall2 (fun p ys => xss !! p = Some ys) o zss -> concat zss = []).
    { intros o zss Hno H. induction H as [|p zs o zss Hz _ IH]; [reflexivity|]. apply not_elem_of_cons in Hno as [Hpk Hno].
      simpl. rewrite (Ho p zs); [|congruence|exact Hz]. apply IH. exact Hno. }
    intros o zss Hnd Hin H. induction H as [|p zs o zss Hz Hzs IH]; [by apply elem_of_nil in Hin|].
    apply NoDup_cons in Hnd as [Hpo Hnd]. simpl. destruct (decide (p = k)) as [->|Hpk].
    - rewrite (Hnone o zss Hpo Hzs), app_nil_r. congruence.
    - rewrite (Ho p zs Hpk Hz). apply IH; [exact Hnd|]. apply elem_of_cons in Hin as [|]; [congruence|assumption]. }
  assert (Hkin : k ∈ seq 0 (length ss)).
  { apply elem_of_seq. apply lookup_lt_Some in Hk. rewrite (Forall2_length _ _ _ Hs). lia. }
  assert (Hc1 : concat yss = xs).
  { apply (Hone order yss); [rewrite Hp; apply NoDup_seq|rewrite Hp; exact Hkin|exact Hy]. }
  assert (Hc2 : concat xss = xs).
  { apply (Hone (seq 0 (length ss)) xss); [apply NoDup_seq|exact Hkin|].
    rewrite (Forall2_length _ _ _ Hs). apply in_order. }
  rewrite Hc2, <- Hc1. exact (append_ok E d order ss xss yss m mb Hs Hp Hy Ha).
Qed.
Print Assumptions C39_append_order_partial.

Example C39_example : [1; 2; 3] ++ [4; 5] <> [4; 5] ++ [1; 2; 3] /\
  assignable int (append_return [s_kind ex_arr; s_kind ex_av]) /\
  [[]; [1; 2; 3]; []] !! 1 = Some [1; 2; 3] /\
  Forall2 (holds ex_mem) [src_arr 0 0; ex_arr; src_av 4 (AV 1 0)] [[]; [1; 2; 3]; []].
Proof.
  split; [discriminate|]. split; [by left|]. split; [reflexivity|].
  rows; [|apply ex_arr_holds|]; (split; [reflexivity|]; split; [simpl; lia|]; intros ? ? [=]).
Qed.

(** ** C41: concat and intercalate *)
Theorem C41_concat {A} (E : ety A) d n xss m mb : nholds m n xss ->
  assignable E (concat_return (ns_kind n) (ns_inner n)) ->
  exists r mb', concat_ E d n m mb = Ok (r, mb') /\
    yields mb (concat_return (ns_kind n) (ns_inner n)) (concat xss) r mb'.
Proof. exact (concat_ok E d n xss m mb). Qed.
Print Assumptions C41_concat.

Theorem C41_intercalate {A} (E : ety A) d del sep n xss m mb : holds m del sep -> nholds m n xss ->
  assignable E (intercalate_return (s_kind del) (ns_kind n) (ns_inner n)) ->
  exists r mb', intercalate_ E d del n m mb = Ok (r, mb') /\
    yields mb (intercalate_return (s_kind del) (ns_kind n) (ns_inner n)) (joined sep xss) r mb'.
Proof. exact (intercalate_ok E d del sep n xss m mb). Qed.
Print Assumptions C41_intercalate.

(** A Vector of Arrays {1,2,3}, {7,8,9}; delimiter {4,5}. *)
Definition ex_nested : nsrc := NSrc (KArrVec 5) (KArray 3) [ex_arr; ex_arr2].
Example C41_example : nholds ex_mem ex_nested [[1; 2; 3]; [7; 8; 9]] /\ holds ex_mem ex_av [4; 5] /\
  joined [4; 5] [[1; 2; 3]; [7; 8; 9]] = [1; 2; 3; 4; 5; 7; 8; 9] /\
  intercalate_return (s_kind ex_av) (ns_kind ex_nested) (ns_inner ex_nested) = KArrVec 31 /\
  concat_return (ns_kind ex_nested) (ns_inner ex_nested) = KArrVec 15 /\ assignable int (KArrVec 31).
Proof.
  split.
  - split; [simpl; lia|]. rows; (split; [apply ex_arr_holds || apply ex_arr2_holds|reflexivity]).
  - split; [exact ex_av_holds|]. split_and!; try reflexivity. by left.
Qed.

(** ** C42: the statically chosen capacity suffices *)
Theorem C42_capacity_suffices {A} (m : mem A) ss xss : Forall2 (holds m) ss xss ->
  (forall rs, zips xss rs -> can_hold (nary_return (s_kind <$> ss)) (length rs)) /\
  can_hold (append_return (s_kind <$> ss)) (length (concat xss)) /\
  can_hold (cartesian_return (s_kind <$> ss)) (length (combinations xss)).
Proof.
  intros Hs. split; [|split].
  - intros rs Hz. rewrite <- (zips_length _ _ Hz). eapply result_kind_holds; [apply minimum_mono|exact Hs].
  - rewrite <- total_concat. eapply result_kind_holds; [apply total_mono|exact Hs].
  - rewrite combinations_length. eapply result_kind_holds; [apply product_mono|exact Hs].
Qed.
Print Assumptions C42_capacity_suffices.

Theorem C42_capacity_suffices_nested {A} (m : mem A) del sep n xss : holds m del sep -> nholds m n xss ->
  can_hold (concat_return (ns_kind n) (ns_inner n)) (length (concat xss)) /\
  can_hold (intercalate_return (s_kind del) (ns_kind n) (ns_inner n)) (length (joined sep xss)).
Proof. intros Hd Hn. split; [exact (concat_holds m n xss Hn)|exact (intercalate_holds m del sep n xss Hd Hn)]. Qed.
Print Assumptions C42_capacity_suffices_nested.

Theorem C42_capacity_suffices_filter {A B} (m : mem A) s xs (ys : list B) : holds m s xs -> length ys <= length xs ->
  can_hold (filter_return (s_kind s)) (length ys).
Proof. intros (_ & Hf & _) Hl. destruct (s_kind s); simpl in *; lia || exact I. Qed.
Print Assumptions C42_capacity_suffices_filter.

(** So no call throws, overflows or is undefined, if the callback never is. *)
Lemma mapW_total {X Y W} (f : X -> W -> res (Y * W)) xs : (forall x w, exists y w', f x w = Ok (y, w')) ->
  forall w, exists ys w', mapW f xs w = Ok (ys, w').
Proof.
  intros Hf. induction xs as [|x xs IH]; intros w; [by exists [], w|]. simpl.
  destruct (Hf x w) as (y & w1 & ->). simpl. destruct (IH w1) as (ys & w2 & ->). simpl. by exists (y :: ys), w2.
Qed.
Lemma filterW_total {X W} (f : X -> W -> res (bool * W)) xs : (forall x w, exists y w', f x w = Ok (y, w')) ->
  forall w, exists ys w', filterW f xs w = Ok (ys, w').
Proof.
  intros Hf. induction xs as [|x xs IH]; intros w; [by exists [], w|]. simpl.
  destruct (Hf x w) as (y & w1 & ->). simpl. destruct (IH w1) as (ys & w2 & ->). simpl. eauto.
Qed.
Lemma same_outcome_ok {X Y} (R : X -> Y -> Prop) x (c : res Y) : same_outcome R (Ok x) c -> exists y, c = Ok y.
Proof. destruct c; simpl; try contradiction. intros _. eauto. Qed.

Theorem C42_no_call_throws {A B W} (E : ety B) (EA : ety A) d (f : list A -> W -> res (B * W)) (g : A -> W -> res (bool * W))
    ss xss rs s xs ma w mb mi mba :
  Forall2 (holds ma) ss xss -> zips xss rs -> holds ma s xs ->
  (forall x w, exists y w', f x w = Ok (y, w')) -> (forall x w, exists y w', g x w = Ok (y, w')) ->
  (assignable E (nary_return (s_kind <$> ss)) -> exists y, map_ E d f ss ma w mb = Ok y) /\
  (assignable E (cartesian_return (s_kind <$> ss)) -> exists y, cartesian_map E d f ss ma w mb = Ok y) /\
  (exists y, filter_ EA g s ma w mba = Ok y) /\ (exists y, find_indices_ g s ma w mi = Ok y).
Proof.
  intros Hs Hz Hsx Hf Hg. split; [|split; [|split]].
  - intros Ha. destruct (mapW_total f rs Hf w) as (ys & w' & Hm).
    pose proof (map_ok E d f ss xss rs ma w mb Hs Hz Ha) as H. rewrite Hm in H. exact (same_outcome_ok _ _ _ H).
  - intros Ha. destruct (mapW_total f (combinations xss) Hf w) as (ys & w' & Hm).
    assert (Hne : ss <> []). { destruct Hz as (_ & (l & Hl & _) & _). intros ->. inversion Hs; subst. by apply elem_of_nil in Hl. }
    pose proof (cartesian_map_ok E d f ss xss ma w mb Hs Hne Ha) as H. rewrite Hm in H. exact (same_outcome_ok _ _ _ H).
  - destruct (filterW_total g xs Hg w) as (ys & w' & Hm).
    pose proof (filter_ok EA g s xs ma w mba Hsx) as H. rewrite Hm in H. exact (same_outcome_ok _ _ _ H).
  - destruct (filterW_total (fun '(_, x) => g x) (indexed 0 xs)) with (w := w) as (ys & w' & Hm); [intros [? x]; apply Hg|].
    pose proof (find_indices_ok g s xs ma w mi Hsx) as H. rewrite Hm in H. exact (same_outcome_ok _ _ _ H).
Qed.
Print Assumptions C42_no_call_throws.

Example C42_example : nary_return [KArray 3; KArrVec 5] = KArrVec 3 /\ append_return [KArray 3; KArrVec 5] = KArrVec 8 /\
  cartesian_return [KArray 3; KArray 2] = KArray 6 /\ can_hold (KArray 6) (length (combinations [[1; 2; 3]; [4; 5]])) /\
  concat_return (KArrVec 2) (KArrVec 3) = KArrVec 6 /\ intercalate_return (KArray 1) (KArray 3) (KArray 2) = KArray 8 /\
  length (joined [0] [[1; 2]; [3; 4]; [5; 6]]) = 8.
Proof. split_and!; reflexivity. Qed.

(** ** C43: take and drop *)
Theorem C43_take_drop {A} i s xs (m : mem A) : holds m s xs ->
  (exists v, take_ i s = Ok v /\ views m s 0 v (take (idx_val i) xs)) /\
  (exists v, drop_ i s = Ok v /\ views m s (Nat.min (idx_val i) (length xs)) v (drop (idx_val i) xs)).
Proof.
  intros Hs. split.
  - destruct (take_view i s xs m Hs) as (v & H1 & _ & H2). eauto.
  - destruct (drop_view i s xs m Hs) as (v & H1 & _ & H2). eauto.
Qed.
Print Assumptions C43_take_drop.

Theorem C43_take_drop_whole {A} i s xs (m : mem A) u v : holds m s xs -> take_ i s = Ok u -> drop_ i s = Ok v ->
  exists ys zs, holds m u ys /\ holds m v zs /\ ys ++ zs = xs.
Proof.
  intros Hs Hu Hv. destruct (take_view i s xs m Hs) as (u' & Hu' & _ & [Hys _]).
  destruct (drop_view i s xs m Hs) as (v' & Hv' & _ & [Hzs _]). rewrite Hu in Hu'. rewrite Hv in Hv'.
  injection Hu' as <-. injection Hv' as <-. exists (take (idx_val i) xs), (drop (idx_val i) xs).
  split; [exact Hys|]. split; [exact Hzs|]. apply take_drop.
Qed.
Print Assumptions C43_take_drop_whole.

(** The unchecked variants, within the length. *)
Theorem C43_take_drop_unsafe {A} i s xs (m : mem A) : holds m s xs -> idx_val i <= length xs ->
  (Z.of_nat (length xs) < 2 ^ 64)%Z -> (forall c, ct_cap (s_kind s) = Some c -> (Z.of_nat c < 2 ^ 64)%Z) ->
  (exists v, take_unsafe i s = Ok v /\ views m s 0 v (take (idx_val i) xs)) /\
  (exists v, drop_unsafe i s = Ok v /\ views m s (idx_val i) v (drop (idx_val i) xs)).
Proof.
  intros Hs Hi Hm Hc. split.
  - exact (take_unsafe_view i s xs m Hs Hi).
  - exact (drop_unsafe_view i s xs m Hs Hi Hm Hc).
Qed.
Print Assumptions C43_take_drop_unsafe.

Example C43_example : holds ex_mem ex_av [4; 5] /\ take 1 [4; 5] = [4] /\ drop 7 [4; 5] = [] /\
  (exists v, drop_ (Sz 7) ex_av = Ok v /\ s_kind v = KArrVec 0 /\ s_len v = 0) /\
  (forall c, ct_cap (s_kind ex_av) = Some c -> (Z.of_nat c < 2 ^ 64)%Z).
Proof.
  split; [exact ex_av_holds|]. split; [reflexivity|]. split; [reflexivity|]. split.
  - eexists. split; [reflexivity|]. split; reflexivity.
  - intros c Hc. injection Hc as <-. reflexivity.
Qed.

(** ** C44, C45: slice *)
Theorem C45_slice_valid {A} start stop s xs (m : mem A) : holds m s xs -> idx_val start <= idx_val stop ->
  idx_val stop <= length xs -> (Z.of_nat (length xs) < 2 ^ 64)%Z ->
  exists v, slice_ start stop s = Ok v /\
    views m s (idx_val start) v (drop (idx_val start) (take (idx_val stop) xs)).
Proof. exact (slice_view start stop s xs m). Qed.
Print Assumptions C45_slice_valid.

Theorem C45_slice_unsafe_valid {A} start stop s xs (m : mem A) : holds m s xs -> idx_val start <= idx_val stop ->
  idx_val stop <= length xs -> (Z.of_nat (length xs) < 2 ^ 64)%Z ->
  (forall c, ct_cap (s_kind s) = Some c -> (Z.of_nat c < 2 ^ 64)%Z) ->
  exists v, slice_unsafe start stop s = Ok v /\
    views m s (idx_val start) v (drop (idx_val start) (take (idx_val stop) xs)).
Proof. exact (slice_unsafe_view start stop s xs m). Qed.
Print Assumptions C45_slice_unsafe_valid.

Example C45_example : holds ex_mem ex_arr [1; 2; 3] /\ (Z.of_nat (length [1; 2; 3]) < 2 ^ 64)%Z /\
  drop 1 (take 3 [1; 2; 3]) = [2; 3] /\ idx_val (Sz 1) <= idx_val (Dy 3).
Proof. split; [exact ex_arr_holds|]. split; [reflexivity|]. split; [reflexivity|]. simpl. lia. Qed.

(** C44, false of the code: with run-time bounds nothing is clamped.  For every Array and every
    end past it, the view claims end - start elements and its first excess one is out of bounds. *)
Theorem C44_slice_past_end_refuted {A} n b start stop (m : mem A) cells : blk m b cells -> length cells = n ->
  start <= n -> n < stop -> (Z.of_nat stop < 2 ^ 64)%Z ->
  exists v, slice_ (Dy start) (Dy stop) (src_arr n b) = Ok v /\ s_len v = stop - start /\
    nth m v (n - start) = UB OutOfBounds.
Proof. exact (slice_array_past n b start stop m cells). Qed.
Print Assumptions C44_slice_past_end_refuted.

(** For every end before the start the claimed size wraps around. *)
Theorem C44_slice_reversed_refuted n b start stop : stop < start -> (Z.of_nat start < 2 ^ 64)%Z ->
  exists v, slice_ (Dy start) (Dy stop) (src_arr n b) = Ok v /\
    Z.of_nat (s_len v) = (2 ^ 64 - Z.of_nat (start - stop))%Z.
Proof. exact (slice_array_reversed n b start stop). Qed.
Print Assumptions C44_slice_reversed_refuted.

(** Proved part: compile-time bounds on an Array are clamped, if start is not past the end. *)
Theorem C44_slice_static_partial {A} start stop s xs (m : mem A) : holds m s xs -> (exists n, s_kind s = KArray n) ->
  start <= stop -> start <= length xs -> (Z.of_nat stop < 2 ^ 64)%Z ->
  exists v, slice_ (Sz start) (Sz stop) s = Ok v /\ views m s start v (drop start (take stop xs)).
Proof. exact (slice_static_clamps start stop s xs m). Qed.
Print Assumptions C44_slice_static_partial.

Example C44_example : blk ex_mem 0 [Live 1; Live 2; Live 3] /\ (exists n, s_kind ex_arr = KArray n) /\
  drop 1 (take 9 [1; 2; 3]) = [2; 3].
Proof. split; [reflexivity|]. split; [by exists 3|reflexivity]. Qed.

(** ** C46: take_while and drop_while *)
Theorem C46_take_while {A W} (f : A -> W -> res (bool * W)) s xs m w : holds m s xs ->
  same_outcome (fun '(p, q, w1) '(v, w2) => w1 = w2 /\ views m s 0 v p)
    (spanW f xs w) (take_while_ f s m w).
Proof.
  intros Hs. eapply so_mono; [exact (take_while_ok f s xs m w Hs)|]. intros [[p q] w1] [v w2] (? & _ & ?). done.
Qed.
Print Assumptions C46_take_while.

Theorem C46_drop_while {A W} (f : A -> W -> res (bool * W)) s xs m w : holds m s xs ->
  same_outcome (fun '(p, q, w1) '(v, w2) => w1 = w2 /\ views m s (length p) v q)
    (spanW f xs w) (drop_while_ f s m w).
Proof.
  intros Hs. eapply so_mono; [exact (drop_while_ok f s xs m w Hs)|]. intros [[p q] w1] [v w2] (? & _ & ?). done.
Qed.
Print Assumptions C46_drop_while.

(** A predicate without effects: the longest satisfying prefix and the remainder. *)
Theorem C46_split_pure {A W} (f : A -> bool) s xs (m : mem A) (w : W) : holds m s xs ->
  exists u v p q, take_while_ (fun x w => Ok (f x, w)) s m w = Ok (u, w) /\
    drop_while_ (fun x w => Ok (f x, w)) s m w = Ok (v, w) /\
    p ++ q = xs /\ Forall (fun x => f x = true) p /\ (forall x, head q = Some x -> f x = false) /\
    views m s 0 u p /\ views m s (length p) v q.
Proof.
  intros Hs. destruct (spanW_pure f xs w) as (p & q & Hsp & Hpq & Hp & Hq).
  pose proof (take_while_ok (fun x w => Ok (f x, w)) s xs m w Hs) as Ht.
  pose proof (drop_while_ok (fun x w => Ok (f x, w)) s xs m w Hs) as Hd.
  rewrite Hsp in Ht, Hd.
  destruct (take_while_ _ _ _ _) as [[u w1]| | |]; try contradiction. destruct Ht as (<- & _ & Ht).
  destruct (drop_while_ _ _ _ _) as [[v w2]| | |]; try contradiction. destruct Hd as (<- & _ & Hd).
  exists u, v, p, q. split_and!; try reflexivity; assumption.
Qed.
Print Assumptions C46_split_pure.

Example C46_example : holds ex_mem ex_arr [1; 2; 3] /\
  spanW (fun x (w : list nat) => Ok (Nat.ltb x 2, w ++ [x])) [1; 2; 3] [] = Ok ([1], [2; 3], [1; 2]).
Proof. split; [exact ex_arr_holds|reflexivity]. Qed.

(** ** C47: searching *)
Theorem C47_find_index {A W} (f : A -> W -> res (bool * W)) s xs m w : holds m s xs ->
  find_index_ f s m w = findW f xs w /\
  find_ f s m w = (let* (o, w) := findW f xs w in Ok (match o with Some _ => true | None => false end, w)).
Proof. intros Hs. unfold find_index_, find_. rewrite (first_index_ok f s xs m w Hs). split; reflexivity. Qed.
Print Assumptions C47_find_index.

(** find / find_index with a predicate without effects. *)
Theorem C47_find_pure {A W} (f : A -> bool) s xs (m : mem A) (w : W) : holds m s xs ->
  exists o, find_index_ (fun x w => Ok (f x, w)) s m w = Ok (o, w) /\
    (exists hit, find_ (fun x w => Ok (f x, w)) s m w = Ok (hit, w) /\
       (hit = true <-> exists i x, xs !! i = Some x /\ f x = true)) /\
    match o with
    | Some i => (exists x, xs !! i = Some x /\ f x = true) /\ (forall j x, j < i -> xs !! j = Some x -> f x = false)
    | None => forall i x, xs !! i = Some x -> f x = false
    end.
Proof.
  intros Hs. destruct (findW_pure f xs w) as (o & Hf & Ho).
  unfold find_index_, find_. rewrite (first_index_ok _ s xs m w Hs), Hf. exists o. split; [reflexivity|].
  destruct o as [i|].
  - destruct Ho as [[x Hx] Hlt]. split; [|split; [eauto|exact Hlt]]. exists true. split; [reflexivity|]. split; [eauto|reflexivity].
  - assert (Hno : forall i x, xs !! i = Some x -> f x = false).
    { intros i x Hi. rewrite Forall_forall in Ho. apply Ho. eapply elem_of_list_lookup_2, Hi. }
    split; [|exact Hno]. exists false. split; [reflexivity|]. split; [discriminate|].
    intros (i & x & Hi & Hx). specialize (Hno i x Hi). congruence.
Qed.
Print Assumptions C47_find_pure.

(** elem / elem_index: the same with element == a. *)
Theorem C47_elem_pure {A W} (eqb : A -> A -> bool) a s xs (m : mem A) (w : W) : holds m s xs ->
  exists o, elem_index_ (fun x y w => Ok (eqb x y, w)) a s m w = Ok (o, w) /\
    (exists hit, elem_ (fun x y w => Ok (eqb x y, w)) a s m w = Ok (hit, w) /\
       (hit = true <-> exists i x, xs !! i = Some x /\ eqb x a = true)) /\
    match o with
    | Some i => (exists x, xs !! i = Some x /\ eqb x a = true) /\ (forall j x, j < i -> xs !! j = Some x -> eqb x a = false)
    | None => forall i x, xs !! i = Some x -> eqb x a = false
    end.
Proof. intros Hs. exact (C47_find_pure (fun x => eqb x a) s xs m w Hs). Qed.
Print Assumptions C47_elem_pure.

(** find_indices: calls in order whatever the predicate does. *)
Theorem C47_find_indices {A W} (f : A -> W -> res (bool * W)) s xs m w mi : holds m s xs ->
  same_outcome (fun '(ps, w1) '(r, w2, mi') => w1 = w2 /\ yields mi (filter_return (s_kind s)) (ps.*1) r mi')
    (filterW (fun '(_, x) => f x) (indexed 0 xs) w) (find_indices_ f s m w mi).
Proof. exact (find_indices_ok f s xs m w mi). Qed.
Print Assumptions C47_find_indices.

(** With a predicate without effects: exactly all indices, increasing. *)
Theorem C47_find_indices_pure {A W} (f : A -> bool) s xs (m : mem A) (w : W) mi : holds m s xs ->
  exists r mi' is, find_indices_ (fun x w => Ok (f x, w)) s m w mi = Ok (r, w, mi') /\
    yields mi (filter_return (s_kind s)) is r mi' /\ StronglySorted lt is /\
    (forall i, i ∈ is <-> exists x, xs !! i = Some x /\ f x = true).
Proof.
  intros Hs. destruct (filter_indexed f xs 0 w) as (ps & Hf & Hso & Hin).
  pose proof (find_indices_ok (fun x w => Ok (f x, w)) s xs m w mi Hs) as H. cbv beta in H. rewrite Hf in H.
  destruct (find_indices_ _ _ _ _ _) as [[[r w1] mi']| | |]; try contradiction. destruct H as [<- Hy].
  exists r, mi', (ps.*1). split; [reflexivity|]. split; [exact Hy|]. split; [exact Hso|].
  intros i. rewrite Hin, Nat.sub_0_r. split; [by intros [_ ?]|]. intros ?. split; [lia|done].
Qed.
Print Assumptions C47_find_indices_pure.

Theorem C47_elem_indices_pure {A W} (eqb : A -> A -> bool) a s xs (m : mem A) (w : W) mi : holds m s xs ->
  exists r mi' is, elem_indices_ (fun x y w => Ok (eqb x y, w)) a s m w mi = Ok (r, w, mi') /\
    yields mi (filter_return (s_kind s)) is r mi' /\ StronglySorted lt is /\
    (forall i, i ∈ is <-> exists x, xs !! i = Some x /\ eqb a x = true).
Proof. intros Hs. exact (C47_find_indices_pure (eqb a) s xs m w mi Hs). Qed.
Print Assumptions C47_elem_indices_pure.

Example C47_example : holds ex_mem ex_arr [1; 2; 3] /\
  find_index_ (fun x w => Ok (Nat.even x, w)) ex_arr ex_mem tt = Ok (Some 1, tt) /\
  elem_ (fun x y w => Ok (Nat.eqb x y, w)) 4 ex_arr ex_mem tt = Ok (false, tt) /\
  find_indices_ (fun x w => Ok (Nat.odd x, w)) ex_arr ex_mem tt mem0 =
    Ok (CAv 3 (AV 0 2), tt, Mem [Some [Live 0; Live 2; Raw]] 0).
Proof. split; [exact ex_arr_holds|]. split_and!; reflexivity. Qed.

(** ** C48: head, last, tail, init *)
Theorem C48_nonempty {A} s x xs (m : mem A) :
  (holds m s (x :: xs) -> head_ s m = Ok x /\ exists v, tail_ s = Ok v /\ views m s 1 v xs) /\
  (holds m s (xs ++ [x]) -> last_ s m = Ok x /\ exists v, init_ s = Ok v /\ views m s 0 v xs).
Proof.
  split; intros Hs.
  - split; [exact (head_ok s x xs m Hs)|]. destruct (tail_view s x xs m Hs) as (v & H1 & _ & H2). eauto.
  - split; [exact (last_ok s xs x m Hs)|]. destruct (init_view s x xs m Hs) as (v & H1 & _ & H2). eauto.
Qed.
Print Assumptions C48_nonempty.

Theorem C48_empty {A} s (m : mem A) : holds m s [] ->
  head_ s m = Throw /\ last_ s m = Throw /\ tail_ s = Throw /\ init_ s = Throw.
Proof. exact (on_empty s m). Qed.
Print Assumptions C48_empty.

Example C48_example : holds ex_mem ex_arr (1 :: [2; 3]) /\ holds ex_mem ex_av ([4] ++ [5]) /\
  holds ex_mem (Src KVector CNull 0) [].
Proof.
  split; [exact ex_arr_holds|]. split; [exact ex_av_holds|]. split; [reflexivity|]. split; [exact I|]. intros i x Hx. discriminate.
Qed.

(** ** C49: cartesian functions *)
Theorem C49_cartesian_for_each {A W} ss xss (ma : mem A) (f : list A -> W -> res W) w :
  Forall2 (holds ma) ss xss -> ss <> [] ->
  cartesian_for_each f ss ma w = forW f (combinations xss) w.
Proof. intros Hs Hne. exact (cartesian_for_each_ok ss xss ma Hs Hne f w). Qed.
Print Assumptions C49_cartesian_for_each.

Theorem C49_cartesian_for_index {W} ns (f : list nat -> W -> res W) w : ns <> [] ->
  cartesian_for_index f ns w = forW f (combinations (seq 0 <$> ns)) w.
Proof. intros Hne. exact (cartesian_for_index_ok ns Hne f w). Qed.
Print Assumptions C49_cartesian_for_index.

Theorem C49_cartesian_map {A B W} (E : ety B) d (f : list A -> W -> res (B * W)) ss xss ma w mb :
  Forall2 (holds ma) ss xss -> ss <> [] -> assignable E (cartesian_return (s_kind <$> ss)) ->
  same_outcome (fun '(ys, w1) '(r, w2, mb') => w1 = w2 /\ yields mb (cartesian_return (s_kind <$> ss)) ys r mb')
    (mapW f (combinations xss) w) (cartesian_map E d f ss ma w mb).
Proof. exact (cartesian_map_ok E d f ss xss ma w mb). Qed.
Print Assumptions C49_cartesian_map.

Example C49_example : combinations [[1; 2]; [3; 4]] = [[1; 3]; [1; 4]; [2; 3]; [2; 4]] /\
  Forall2 (holds ex_mem) [ex_av; ex_vec] [[4; 5]; [6]] /\
  cartesian_for_index (fun is w => Ok (w ++ [is])) [2; 2] [] = Ok [[0; 0]; [0; 1]; [1; 0]; [1; 1]].
Proof.
  split; [reflexivity|]. split; [|reflexivity]. rows; [apply ex_av_holds|apply ex_vec_holds].
Qed.

(** ** C50: from_function *)
Theorem C50_from_function {B W} (E : ety B) d len (f : nat -> W -> res (B * W)) w mb :
  triv E = true \/ (exists n, len = Sz n) ->
  same_outcome (fun '(ys, w1) '(r, w2, mb') => w1 = w2 /\
      yields mb (match len with Sz n => KArray n | Dy _ => KVector end) ys r mb')
    (mapW f (seq 0 (idx_val len)) w) (from_function E d len f w mb).
Proof. exact (from_function_ok E d len f w mb). Qed.
Print Assumptions C50_from_function.

Example C50_example : triv int = true /\
  from_function int 0 (Dy 3) (fun i w => Ok (10 * i, w ++ [i])) [] mem0 =
    Ok (CVec (Vec (Blk 0) 3 4), [0; 1; 2], Mem [Some [Live 0; Live 10; Live 20; Raw]] 0).
Proof. split; reflexivity. Qed.

(** ** C51: for_each *)
Theorem C51_for_each {A W} (f : list A -> W -> res W) ss xss rs ma w :
  Forall2 (holds ma) ss xss -> zips xss rs -> for_each f ss ma w = forW f rs w.
Proof. exact (for_each_ok f ss xss rs ma w). Qed.
Print Assumptions C51_for_each.

Theorem C51_for_each_with_index {A W} (f : nat -> list A -> W -> res W) ss xss rs ma w :
  Forall2 (holds ma) ss xss -> zips xss rs ->
  for_each_with_index f ss ma w = forW (fun '(i, r) => f i r) (indexed 0 rs) w.
Proof. exact (for_each_with_index_ok f ss xss rs ma w). Qed.
Print Assumptions C51_for_each_with_index.

(** The mutating variants, for sequences that do not overlap: column k of the returned rows
    replaces the visited prefix of sequence k, and nothing else changes. *)
Theorem C51_for_each_with_index_mut {A W} (E : ety A) (f : nat -> list A -> W -> res (list A * W)) ss xss rs m w :
  Forall2 (holds m) ss xss -> zips xss rs ->
  (forall k l s t, k <> l -> ss !! k = Some s -> ss !! l = Some t -> apart s t) ->
  (forall i xs w ys w', f i xs w = Ok (ys, w') -> length ys = length xs) ->
  same_outcome (fun '(rows, w1) '(m', w2) => w1 = w2 /\ leaks m' = leaks m /\
      (forall k s xs, ss !! k = Some s -> xss !! k = Some xs ->
         exists ys, column rows k xs ys /\ holds m' s ys) /\
      (forall t ys, (forall s, s ∈ ss -> apart s t) -> holds m t ys -> holds m' t ys))
    (mapW (fun '(i, r) => f i r) (indexed 0 rs) w) (for_each_with_index_mut E f ss m w).
Proof. exact (for_each_mut_gen E f ss xss rs m w). Qed.
Print Assumptions C51_for_each_with_index_mut.

Theorem C51_for_each_mut {A W} (E : ety A) (f : list A -> W -> res (list A * W)) ss xss rs m w :
  Forall2 (holds m) ss xss -> zips xss rs ->
  (forall k l s t, k <> l -> ss !! k = Some s -> ss !! l = Some t -> apart s t) ->
  (forall xs w ys w', f xs w = Ok (ys, w') -> length ys = length xs) ->
  same_outcome (fun '(rows, w1) '(m', w2) => w1 = w2 /\ leaks m' = leaks m /\
      (forall k s xs, ss !! k = Some s -> xss !! k = Some xs ->
         exists ys, column rows k xs ys /\ holds m' s ys) /\
      (forall t ys, (forall s, s ∈ ss -> apart s t) -> holds m t ys -> holds m' t ys))
    (mapW f rs w) (for_each_mut E f ss m w).
Proof.
  intros Hs Hz Hap Hf. rewrite <- (mapW_indexed f rs 0 w).
  exact (for_each_mut_gen E (fun _ => f) ss xss rs m w Hs Hz Hap (fun _ => Hf)).
Qed.
Print Assumptions C51_for_each_mut.

Example C51_example : (forall k l s t, k <> l -> [ex_arr; ex_av] !! k = Some s -> [ex_arr; ex_av] !! l = Some t -> apart s t) /\
  for_each_mut int (fun r w => Ok (S <$> r, w ++ r)) [ex_arr; ex_av] ex_mem [] =
    Ok (Mem [Some [Live 2; Live 3; Live 3]; Some [Live 5; Live 6; Raw; Raw]; Some [Live 6]; Some [Live 7; Live 8; Live 9]] 0,
        [1; 4; 2; 5]) /\
  column [[2; 5]; [3; 6]] 0 [1; 2; 3] [2; 3; 3].
Proof.
  split; [|split; [reflexivity|]].
  - intros [|[|k]] [|[|l]] s t Hkl Hs Ht; simpl in *; try discriminate; try lia;
      injection Hs as <-; injection Ht as <-; intros i j a _ _ Ha Hb; cbv in Ha, Hb; congruence.
  - split; [reflexivity|]. intros [|[|[|[|i]]]]; reflexivity.
Qed.

(** ** C52, C92: compose *)

(** While the function objects exist, the last one is called first and its result passed on. *)
Theorem C52_compose {X W} (mf : mem (X -> W -> res (X * W))) fs gs x w :
  Forall2 (fun r g => read mf (f_blk r) (f_off r) = Ok g) fs gs ->
  composed_call (compose fs) mf x w = pipeline (reverse gs) x w.
Proof. intros H. exact (composed_ok mf fs gs H x w). Qed.
Print Assumptions C52_compose.

Definition ex_fns : mem (nat -> list nat -> res (nat * list nat)) :=
  Mem [Some [Live (fun x w => Ok (x + 1, w ++ [0])); Live (fun x w => Ok (2 * x, w ++ [1]))]] 0.
Example C52_example : composed_call (compose [FRef 0 0; FRef 0 1]) ex_fns 5 [] = Ok (11, [1; 0]) /\
  Forall2 (fun r g => read ex_fns (f_blk r) (f_off r) = Ok g) [FRef 0 0; FRef 0 1]
    [fun x w => Ok (x + 1, w ++ [0]); fun x w => Ok (2 * x, w ++ [1])].
Proof. split; [reflexivity|]. by repeat constructor. Qed.

(** C92, false of the code: a composition refers to its functions.  If the one called first was a
    temporary that is gone, every call is undefined. *)
Theorem C92_compose_outlives_refuted {X W} (mf : mem (X -> W -> res (X * W))) fs b o x w :
  blocks mf !! b = Some None ->
  composed_call (compose (fs ++ [FRef b o])) mf x w = UB UseAfterFree.
Proof. intros Hb. exact (composed_dead mf fs b o Hb x w). Qed.
Print Assumptions C92_compose_outlives_refuted.

Example C92_example : let mf : mem (nat -> unit -> res (nat * unit)) := Mem [Some [Live (fun x w => Ok (x, w))]; None] 0 in
  blocks mf !! 1 = Some None.
Proof. reflexivity. Qed.
