(** Storage: blocks of cells, each raw or holding a live object.

    This models what the C++ language says about storage and object lifetime, as used by
    RawStorage, Allocator and placement new in /repo/include/efp (meta.hpp:
    RawStorage, allocator.hpp: AllocatorTraits).  No function of /repo is modelled here. *)
From Verif Require Export Base.Cpp.
Set Default Proof Using "Type".

Inductive cell (A : Type) : Type := Raw | Live (a : A).
Arguments Raw {A}.
Arguments Live {A} _.

(** An element type: trivial (e.g. int, char) or class type, and the value a moved-from
    object is left with. *)
Record ety (A : Type) : Type := Ety { triv : bool; mvd : A -> A }.
Arguments Ety {A} _ _.
Arguments triv {A} _.
Arguments mvd {A} _ _.

(** Moving a trivial object copies it. *)
Definition ety_ok {A} (E : ety A) : Prop := triv E = true -> forall x, mvd E x = x.

(** Blocks are numbered; [None] marks a released block.  [leaks] counts class-type
    objects whose storage was reused or released while they were alive. *)
Record mem (A : Type) : Type := Mem { blocks : list (option (list (cell A))); leaks : nat }.
Arguments Mem {A} _ _.
Arguments blocks {A} _.
Arguments leaks {A} _.

Definition mem0 {A} : mem A := Mem [] 0.

Section mem.
Context {A : Type} (E : ety A).
Implicit Types (m : mem A) (b i : nat) (cs : list (cell A)).

Definition is_live (c : cell A) : bool := match c with Live _ => true | Raw => false end.
Definition live_count (cs : list (cell A)) : nat := length (List.filter is_live cs).

(** Block [b] is allocated and holds [cs]. *)
Definition blk m b cs : Prop := blocks m !! b = Some (Some cs).

(** Memory [m] with the content of block [b] replaced. *)
Definition upd m b cs : mem A := Mem (<[b := Some cs]> (blocks m)) (leaks m).

Definition alloc m (n : nat) : nat * mem A :=
  (length (blocks m), Mem (blocks m ++ [Some (replicate n Raw)]) (leaks m)).

Definition with_block {B} m b (f : list (cell A) -> res B) : res B :=
  match blocks m !! b with
  | Some (Some cs) => f cs
  | _ => UB UseAfterFree
  end.

Definition free m b : res (mem A) :=
  match blocks m !! b with
  | Some (Some cs) =>
      Ok (Mem (<[b := None]> (blocks m))
              (leaks m + if triv E then 0 else live_count cs))
  | _ => UB BadFree
  end.

Definition read m b i : res A :=
  with_block m b (fun cs =>
    match cs !! i with
    | Some (Live a) => Ok a
    | Some Raw => UB Uninit
    | None => UB OutOfBounds
    end).

(** Placement new. *)
Definition construct m b i (a : A) : res (mem A) :=
  with_block m b (fun cs =>
    match cs !! i with
    | Some Raw => Ok (upd m b (<[i := Live a]> cs))
    | Some (Live _) =>
        let m' := upd m b (<[i := Live a]> cs) in
        Ok (Mem (blocks m') (leaks m' + if triv E then 0 else 1))
    | None => UB OutOfBounds
    end).

(** Explicit destructor call. *)
Definition destroy m b i : res (mem A) :=
  with_block m b (fun cs =>
    match cs !! i with
    | Some c =>
        if triv E then Ok m
        else match c with
             | Live _ => Ok (upd m b (<[i := Raw]> cs))
             | Raw => UB DeadObject
             end
    | None => UB OutOfBounds
    end).

Definition assign m b i (a : A) : res (mem A) :=
  with_block m b (fun cs =>
    match cs !! i with
    | Some (Live _) => Ok (upd m b (<[i := Live a]> cs))
    | Some Raw => if triv E then Ok (upd m b (<[i := Live a]> cs)) else UB DeadObject
    | None => UB OutOfBounds
    end).

(** Reading an object through an rvalue reference: the value goes out, [mvd] stays. *)
Definition move_out m b i : res (A * mem A) :=
  with_block m b (fun cs =>
    match cs !! i with
    | Some (Live a) => Ok (a, upd m b (<[i := Live (mvd E a)]> cs))
    | Some Raw => UB Uninit
    | None => UB OutOfBounds
    end).

(** ** Lemmas *)
Lemma blk_lt m b cs : blk m b cs -> b < length (blocks m).
Proof. intros H. by eapply lookup_lt_Some. Qed.

Lemma blk_upd m b cs cs' : blk m b cs -> blk (upd m b cs') b cs'.
Proof. intros H. unfold blk, upd; simpl. apply list_lookup_insert. by eapply blk_lt. Qed.

Lemma blk_upd_ne m b b' cs cs' : b <> b' -> blk m b cs -> blk (upd m b' cs') b cs.
Proof. intros H Hb. unfold blk, upd; simpl. by rewrite list_lookup_insert_ne. Qed.

Lemma blk_fun m b cs cs' : blk m b cs -> blk m b cs' -> cs = cs'.
Proof. unfold blk. intros H1 H2. congruence. Qed.

Lemma upd_upd m b cs cs' : upd (upd m b cs) b cs' = upd m b cs'.
Proof. unfold upd; simpl. by rewrite list_insert_insert. Qed.

Lemma upd_same m b cs : blk m b cs -> upd m b cs = m.
Proof. intros H. unfold upd. rewrite list_insert_id by done. by destruct m. Qed.

Lemma upd_comm m b b' cs cs' : b <> b' -> upd (upd m b cs) b' cs' = upd (upd m b' cs') b cs.
Proof. intros H. unfold upd; simpl. by rewrite list_insert_commute. Qed.

Lemma leaks_upd m b cs : leaks (upd m b cs) = leaks m.
Proof. done. Qed.

Lemma length_upd m b cs : length (blocks (upd m b cs)) = length (blocks m).
Proof. unfold upd; simpl. by rewrite insert_length. Qed.

Lemma with_block_blk {B} m b cs (f : list (cell A) -> res B) :
  blk m b cs -> with_block m b f = f cs.
Proof. unfold blk, with_block. by intros ->. Qed.

Lemma read_ok m b cs i a : blk m b cs -> cs !! i = Some (Live a) -> read m b i = Ok a.
Proof. intros Hb Hi. unfold read. rewrite (with_block_blk _ _ _ _ Hb). by rewrite Hi. Qed.

Lemma construct_raw m b cs i a : blk m b cs -> cs !! i = Some Raw ->
  construct m b i a = Ok (upd m b (<[i := Live a]> cs)).
Proof. intros Hb Hi. unfold construct. rewrite (with_block_blk _ _ _ _ Hb). by rewrite Hi. Qed.

(** Raw, or any cell of a trivial type: constructing here is no leak. *)
Definition vacant (c : cell A) : Prop := c = Raw \/ triv E = true.

Lemma construct_vacant m b cs i c a : blk m b cs -> cs !! i = Some c -> vacant c ->
  construct m b i a = Ok (upd m b (<[i := Live a]> cs)).
Proof.
  intros Hb Hi Hv. unfold construct. rewrite (with_block_blk _ _ _ _ Hb). rewrite Hi.
  destruct c as [|a']; [done|]. destruct Hv as [?|Ht]; [done|]. rewrite Ht.
  rewrite Nat.add_0_r. done.
Qed.

(** What destroying leaves in the cell. *)
Definition dead (c : cell A) : cell A := if triv E then c else Raw.

Lemma dead_vacant c : vacant (dead c).
Proof. unfold dead, vacant. destruct (triv E); auto. Qed.

Lemma destroy_live m b cs i a : blk m b cs -> cs !! i = Some (Live a) ->
  destroy m b i = Ok (upd m b (<[i := dead (Live a)]> cs)).
Proof.
  intros Hb Hi. unfold destroy, dead. rewrite (with_block_blk _ _ _ _ Hb). rewrite Hi.
  destruct (triv E); [|done]. rewrite list_insert_id by done. by rewrite upd_same.
Qed.

Lemma assign_live m b cs i a a' : blk m b cs -> cs !! i = Some (Live a') ->
  assign m b i a = Ok (upd m b (<[i := Live a]> cs)).
Proof. intros Hb Hi. unfold assign. rewrite (with_block_blk _ _ _ _ Hb). by rewrite Hi. Qed.

Lemma assign_triv m b cs i a c : triv E = true -> blk m b cs -> cs !! i = Some c ->
  assign m b i a = Ok (upd m b (<[i := Live a]> cs)).
Proof.
  intros Ht Hb Hi. unfold assign. rewrite (with_block_blk _ _ _ _ Hb). rewrite Hi, Ht.
  by destruct c.
Qed.

Lemma move_out_live m b cs i a : blk m b cs -> cs !! i = Some (Live a) ->
  move_out m b i = Ok (a, upd m b (<[i := Live (mvd E a)]> cs)).
Proof. intros Hb Hi. unfold move_out. rewrite (with_block_blk _ _ _ _ Hb). by rewrite Hi. Qed.

Lemma alloc_blk m n b m' : alloc m n = (b, m') -> blk m' b (replicate n Raw).
Proof.
  intros H. injection H as <- <-. unfold blk; simpl.
  rewrite lookup_app_r by lia. by rewrite Nat.sub_diag.
Qed.

Lemma alloc_old m n b m' b' cs : alloc m n = (b, m') -> blk m b' cs -> blk m' b' cs /\ b' <> b.
Proof.
  intros H Hb. injection H as <- <-. split.
  - unfold blk in *; simpl. by apply lookup_app_l_Some.
  - apply blk_lt in Hb. lia.
Qed.

Lemma live_count_raw cs : Forall (fun c => c = Raw) cs -> live_count cs = 0.
Proof.
  intros H. unfold live_count. induction H as [|c cs -> _ IH]; [done|]. done.
Qed.

Lemma free_ok m b cs : blk m b cs -> (triv E = true \/ Forall (fun c => c = Raw) cs) ->
  free m b = Ok (Mem (<[b := None]> (blocks m)) (leaks m)).
Proof.
  intros Hb Hr. unfold free. rewrite Hb. do 2 f_equal.
  destruct (triv E) eqn:Ht; [by rewrite Nat.add_0_r|].
  destruct Hr as [?|Hr]; [done|]. rewrite live_count_raw by done. by rewrite Nat.add_0_r.
Qed.
End mem.
