(** Proofs about Maybe and Tuple. *)
From Verif Require Import Base.Cpp Model.Enum Model.Maybe.
Set Default Proof Using "Type".

Section maybe.
Context {V : Type} (n : nat) (nv : V).

Lemma nothing_eq a : maybe_nothing n nv a = Ok (EObj 0 (Some (n, nv))).
Proof. unfold maybe_nothing, maybe_from. simpl. by rewrite decide_True. Qed.
Lemma pure_eq a (v : V) : a <> n -> maybe_pure n a v = Ok (EObj 1 (Some (a, v))).
Proof. intros H. unfold maybe_pure, maybe_from. simpl. rewrite decide_False by done. by rewrite decide_True. Qed.
Lemma from_eq a (v : V) : a <> n -> maybe_from n a a v = Ok (EObj 1 (Some (a, v))).
Proof. apply pure_eq. Qed.
Lemma pure_nothing_eq (v : V) : maybe_pure n n v = Ok (EObj 0 (Some (n, v))).
Proof. unfold maybe_pure, maybe_from. simpl. by rewrite decide_True. Qed.
Lemma index_of_value a : a <> n -> alt_index [n; a] a = Some 1.
Proof. intros H. simpl. rewrite decide_False by done. by rewrite decide_True. Qed.
Lemma value_just a (v : V) : a <> n -> maybe_value n a (EObj 1 (Some (a, v))) = Ok v.
Proof.
  intros H. unfold maybe_value. rewrite index_of_value by done. rewrite decide_True by done.
  unfold e_read. simpl. by rewrite decide_True.
Qed.
Lemma value_nothing a (x : option (nat * V)) : a <> n -> maybe_value n a (EObj 0 x) = Throw.
Proof. intros H. unfold maybe_value. rewrite index_of_value by done. by rewrite decide_False. Qed.
Lemma has_just x : has_value (V:=V) (EObj 1 x) = true. Proof. done. Qed.
Lemma has_not x : has_value (V:=V) (EObj 0 x) = false. Proof. done. Qed.
End maybe.

(** ** Tuple *)
Section tuple.
Context {V : Type}.

Lemma index_sequence n ns : make_index_sequence n ns = seq 0 n ++ ns.
Proof.
  revert ns. induction n as [|n IH]; intros ns; [done|]. cbn [make_index_sequence].
  rewrite IH, seq_S, <- app_assoc. done.
Qed.

Lemma tuple_of_length (xs : list V) : length (tuple_of xs) = length xs.
Proof. unfold tuple_of. rewrite index_sequence, app_nil_r, zip_with_length, seq_length. lia. Qed.

Lemma get_zip_seq (xs : list V) o i : tuple_get (zip (seq o (length xs)) xs) (o + i) =
  match xs !! i with Some x => Ok x | None => UB OutOfBounds end.
Proof.
  revert o i. induction xs as [|x xs IH]; intros o i; [done|]. simpl. destruct i as [|i].
  - rewrite decide_True by lia. done.
  - rewrite decide_False by lia. rewrite <- Nat.add_succ_comm. apply (IH (S o) i).
Qed.

Lemma tuple_get_ok (xs : list V) i : tuple_get (tuple_of xs) i =
  match xs !! i with Some x => Ok x | None => UB OutOfBounds end.
Proof. unfold tuple_of. rewrite index_sequence, app_nil_r. apply (get_zip_seq xs 0 i). Qed.

Lemma set_zip_seq (xs : list V) o i v : i < length xs ->
  tuple_set (zip (seq o (length xs)) xs) (o + i) v = zip (seq o (length xs)) (<[i := v]> xs).
Proof.
  revert o i. induction xs as [|x xs IH]; intros o i Hi; [simpl in Hi; lia|]. simpl. destruct i as [|i].
  - rewrite decide_True by lia. done.
  - rewrite decide_False by lia. simpl in *. f_equal. rewrite <- Nat.add_succ_comm. apply (IH (S o) i). lia.
Qed.

Lemma tuple_set_ok (xs : list V) i v : i < length xs ->
  tuple_set (tuple_of xs) i v = tuple_of (<[i := v]> xs).
Proof.
  intros Hi. unfold tuple_of. rewrite !index_sequence, !app_nil_r, insert_length.
  apply (set_zip_seq xs 0 i v Hi).
Qed.

Lemma tuple_args_ok (xs : list V) o n : o + n = length xs ->
  tuple_args (tuple_of xs) (seq o n) = Ok (drop o xs).
Proof.
  revert o. induction n as [|n IH]; intros o H; simpl.
  - by rewrite drop_ge by lia.
  - rewrite tuple_get_ok. destruct (lookup_lt_is_Some_2 xs o) as [x Hx]; [lia|]. rewrite Hx. cbn [bind].
    rewrite IH by lia. cbn [bind]. by rewrite (drop_S xs x o Hx).
Qed.

Lemma tuple_match_ok {R} (f : list V -> res R) xs : tuple_match f (tuple_of xs) = f xs.
Proof.
  unfold tuple_match. rewrite tuple_of_length, index_sequence, app_nil_r, tuple_args_ok by lia. done.
Qed.

Lemma tuple_compare_ok eqb neqb (xs ys : list V) n :
  (forall i x y, neqb i x y = negb (eqb i x y)) ->
  length xs = length ys -> n <= length xs ->
  exists b, tuple_compare eqb neqb n (tuple_of xs) (tuple_of ys) = Ok b /\
    (b = true <-> forall i x y, i < n -> xs !! i = Some x -> ys !! i = Some y -> eqb i x y = true).
Proof.
  intros Hn Hl. induction n as [|n IH]; intros Hlen; simpl.
  - exists true. split; [done|]. split; [|done]. intros _ i x y Hi. lia.
  - rewrite !tuple_get_ok. destruct (lookup_lt_is_Some_2 xs n) as [x Hx]; [lia|].
    destruct (lookup_lt_is_Some_2 ys n) as [y Hy]; [lia|]. rewrite Hx, Hy. cbn [bind].
    assert (exists b, (if neqb n x y then Ok false else tuple_compare eqb neqb n (tuple_of xs) (tuple_of ys)) = Ok b /\
      (b = true <-> forall i x y, i < S n -> xs !! i = Some x -> ys !! i = Some y -> eqb i x y = true)) as H.
    { rewrite Hn. destruct (eqb n x y) eqn:E; simpl.
      - destruct IH as (b & -> & Hb); [lia|]. exists b. split; [done|]. rewrite Hb. split; intros H i x' y' Hi Hx' Hy'.
        + destruct (decide (i = n)) as [->|]; [congruence|]. apply (H i); [lia|done|done].
        + apply (H i); [lia|done|done].
      - exists false. split; [done|]. split; [done|]. intros H. rewrite <- E. symmetry.
        rewrite (H n x y) by (done || lia). done. }
    destruct n as [|n].
    + exists (eqb 0 x y). split; [done|]. split.
      * intros E i x' y' Hi Hx' Hy'. assert (i = 0) as -> by lia. congruence.
      * intros H'. apply (H' 0); [lia|done|done].
    + exact H.
Qed.
End tuple.
