(** Outcomes of C++ code, and loop combinators.

    This file models no particular function of /repo: it fixes how the model
    expresses "returns", "throws", "has undefined behaviour" and "loops". *)
From Coq Require Export List Arith ZArith Lia Bool.
From stdpp Require Export prelude.

(** Kinds of undefined behaviour a model function can report. *)
Inductive ub : Type :=
| OutOfBounds        (* access outside an array or allocation *)
| Uninit             (* read of a cell that holds no value *)
| DeadObject         (* assignment to, move from or destruction of a class-type
                        object outside its lifetime *)
| UseAfterFree       (* access to a released block *)
| NullDeref          (* dereference of a null pointer *)
| IndetPtr           (* use of an indeterminate pointer or scalar *)
| BadFree            (* release of something that is not an allocation *)
| WrongMember        (* access to an inactive union member *)
| Overflow           (* signed integer overflow *)
| DataRace           (* unsynchronised conflicting accesses *)
| StreamOrder.       (* reading a C stream right after writing it, or the reverse *)

Inductive res (A : Type) : Type :=
| Ok (a : A)
| Throw
| UB (k : ub)
| Diverge.
Arguments Ok {A} _.
Arguments Throw {A}.
Arguments UB {A} _.
Arguments Diverge {A}.

Definition bind {A B} (r : res A) (f : A -> res B) : res B :=
  match r with
  | Ok a => f a
  | Throw => Throw
  | UB k => UB k
  | Diverge => Diverge
  end.

Notation "'let*' x := e 'in' k" := (bind e (fun x => k))
  (at level 200, x pattern, e at level 100, k at level 200, right associativity).

(** Checked array access: [a[i]] and [a[i] = x] on an array of known length. *)
Definition get {A} (l : list A) (i : nat) : res A :=
  match l !! i with Some x => Ok x | None => UB OutOfBounds end.

Definition put {A} (l : list A) (i : nat) (x : A) : res (list A) :=
  if decide (i < length l) then Ok (<[i := x]> l) else UB OutOfBounds.

(** [for (i = a; i < b; ++i) body] is [for_up (b - a) a body]. *)
Fixpoint for_up {S} (n i : nat) (body : nat -> S -> res S) (s : S) : res S :=
  match n with
  | O => Ok s
  | Datatypes.S n' => let* s' := body i s in for_up n' (Datatypes.S i) body s'
  end.

(** [for (i = n; i-- > m;) body] is [for_down n m body]. *)
Fixpoint for_down {S} (n m : nat) (body : nat -> S -> res S) (s : S) : res S :=
  match n with
  | O => Ok s
  | Datatypes.S i =>
      if decide (m <= i) then let* s' := body i s in for_down i m body s' else Ok s
  end.

(** A general [while]: [step] returns [inl s'] to go on and [inr r] to leave.
    Running out of fuel is [Diverge], never a normal-looking value. *)
Fixpoint loop {S R} (fuel : nat) (step : S -> res (S + R)) (s : S) : res R :=
  match fuel with
  | O => Diverge
  | Datatypes.S f =>
      let* o := step s in
      match o with inl s' => loop f step s' | inr r => Ok r end
  end.

(** Total correctness: [r] returns normally with a result satisfying [Q]. *)
Definition wp {A} (r : res A) (Q : A -> Prop) : Prop := exists a, r = Ok a /\ Q a.

Lemma wp_ok {A} (a : A) (Q : A -> Prop) : Q a -> wp (Ok a) Q.
Proof. intros H. exists a. auto. Qed.

Lemma wp_bind {A B} (r : res A) (f : A -> res B) Q :
  wp r (fun a => wp (f a) Q) -> wp (bind r f) Q.
Proof. intros (a & -> & H). exact H. Qed.

Lemma wp_mono {A} (r : res A) (P Q : A -> Prop) :
  wp r P -> (forall a, P a -> Q a) -> wp r Q.
Proof. intros (a & -> & H) HPQ. exists a. auto. Qed.

Lemma wp_and {A} (r : res A) (P Q : A -> Prop) :
  wp r P -> wp r Q -> wp r (fun a => P a /\ Q a).
Proof. intros (a & -> & H) (b & Hb & H'). injection Hb as ->. exists b. auto. Qed.

Lemma wp_get {A} (l : list A) i x (Q : A -> Prop) :
  l !! i = Some x -> Q x -> wp (get l i) Q.
Proof. intros H HQ. unfold get. rewrite H. by apply wp_ok. Qed.

Lemma wp_get_lt {A} (l : list A) i (Q : A -> Prop) :
  i < length l -> (forall x, l !! i = Some x -> Q x) -> wp (get l i) Q.
Proof.
  intros H HQ. destruct (lookup_lt_is_Some_2 l i H) as [x Hx].
  eapply wp_get; eauto.
Qed.

Lemma wp_put {A} (l : list A) i x (Q : list A -> Prop) :
  i < length l -> Q (<[i := x]> l) -> wp (put l i x) Q.
Proof. intros H HQ. unfold put. rewrite decide_True by done. by apply wp_ok. Qed.

Lemma wp_for_up {S} (Inv : nat -> S -> Prop) n i body (s : S) (Q : S -> Prop) :
  Inv i s ->
  (forall k s, i <= k -> k < i + n -> Inv k s -> wp (body k s) (Inv (Datatypes.S k))) ->
  (forall s, Inv (i + n) s -> Q s) ->
  wp (for_up n i body s) Q.
Proof.
  revert i s. induction n as [|n IH]; intros i s Hi Hstep HQ; cbn [for_up].
  - apply wp_ok, HQ. by rewrite Nat.add_0_r.
  - apply wp_bind. eapply wp_mono; [apply Hstep; [lia|lia|done]|].
    intros s' Hs'. apply IH; [done| |].
    + intros k s1 ? ?. apply Hstep; lia.
    + intros s1 H1. apply HQ. by replace (i + Datatypes.S n) with (Datatypes.S i + n) by lia.
Qed.

Lemma wp_for_down {S} (Inv : nat -> S -> Prop) n m body (s : S) (Q : S -> Prop) :
  m <= n ->
  Inv n s ->
  (forall k s, m <= k -> k < n -> Inv (Datatypes.S k) s -> wp (body k s) (Inv k)) ->
  (forall s, Inv m s -> Q s) ->
  wp (for_down n m body s) Q.
Proof.
  intros Hmn. revert s. induction n as [|n IH]; intros s Hi Hstep HQ; cbn [for_down].
  - apply wp_ok, HQ. by replace m with 0 by lia.
  - destruct (decide (m <= n)) as [Hle|Hgt].
    + apply wp_bind. eapply wp_mono; [apply Hstep; [lia|lia|done]|].
      intros s' Hs'. apply IH; [done|done| |done].
      intros k s1 ? ?. apply Hstep; lia.
    + apply wp_ok, HQ. by replace m with (Datatypes.S n) by lia.
Qed.

Lemma wp_loop {S R} (Inv : S -> Prop) (measure : S -> nat) fuel
    (step : S -> res (S + R)) (s : S) (Q : R -> Prop) :
  measure s < fuel ->
  Inv s ->
  (forall s, Inv s -> wp (step s) (fun o =>
     match o with inl s' => Inv s' /\ measure s' < measure s | inr r => Q r end)) ->
  wp (loop fuel step s) Q.
Proof.
  revert s. induction fuel as [|fuel IH]; intros s Hm Hi Hstep; cbn [loop].
  - lia.
  - apply wp_bind. eapply wp_mono; [by apply Hstep|].
    intros [s'|r].
    + intros [Hs' Hlt]. apply IH; [lia|done|done].
    + intros Hr. by apply wp_ok.
Qed.

(** Wrap-around of size_t (64 bit). *)
Definition size_mod : Z := 2 ^ 64.
Definition wrap (z : Z) : Z := (z mod size_mod)%Z.
