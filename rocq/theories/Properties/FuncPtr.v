(** Function pointers from callables (c_utility.hpp): property C78. *)
From Verif Require Import Base.Cpp Model.FuncPtr.

(** ** C78: func_ptr(f) calls f *)

(** It does not: after func_ptr of a second object of the same type, the first pointer calls the
    second object, for every pair of objects. The first one is not touched. *)
Theorem C78_second_callable_refuted {S A R} (body : nat -> S -> A -> S * R) a b t sa sb x st :
  objs st a = Some (t, sa) -> objs st b = Some (t, sb) -> a <> b ->
  exists p q st1 st2 st3,
    func_ptr a st = Ok (p, st1) /\ func_ptr b st1 = Ok (q, st2) /\
    call body p x st2 = Ok ((body t sb x).2, st3) /\
    objs st3 a = Some (t, sa) /\ objs st3 b = Some (t, (body t sb x).1).
Proof.
  intros Ha Hb Hne. eexists t, t, _, _, (State (set b (Some (t, (body t sb x).1)) (objs st)) _). split; [unfold func_ptr; by rewrite Ha|].
  split; [unfold func_ptr; simpl; by rewrite Hb|]. split_and!.
  - unfold call. simpl. unfold set at 1. rewrite decide_True by done. rewrite Hb, decide_True by done.
    destruct (body t sb x) as [s' r] eqn:E. reflexivity.
  - unfold set. simpl. by rewrite decide_False.
  - unfold set. simpl. by rewrite decide_True.
Qed.
Print Assumptions C78_second_callable_refuted.

(** Two counters. *)
Example C78_counters :
  let body := fun (_ s : nat) (x : nat) => (s + x, s + x) in
  let st := State (fun a => match a with 0 => Some (9, 100) | 1 => Some (9, 200) | _ => None end) (fun _ => None) in
  match func_ptr 0 st with
  | Ok (p, st) =>
      match func_ptr 1 st with
      | Ok (_, st) => match call body p 5 st with Ok (r, _) => r = 205 | _ => False end
      | _ => False
      end
  | _ => False
  end.
Proof. reflexivity. Qed.

(** The operations after which the pointer for [a] of type [t] is still good: [a] is not destroyed and
    func_ptr is applied to no other object of the same type. *)
Definition keeps {S A} (a t : nat) (o : op S A) (st : state S) : Prop :=
  match o with
  | Destroy b => b <> a
  | FuncPtr b => b = a \/ forall s, objs st b <> Some (t, s)
  | _ => True
  end.
Inductive history {S A R} (body : nat -> S -> A -> S * R) (a t : nat) : state S -> state S -> Prop :=
| history_nil st : history body a t st st
| history_step st1 st2 o st3 :
    history body a t st1 st2 -> keeps a t o st2 -> step body o st2 = Some (Ok st3) -> history body a t st1 st3.

(** After any such operations the pointer calls [a], with the captured state [a] has then. *)
Theorem C78_last_callable_partial {S A R} (body : nat -> S -> A -> S * R) a t s st p st1 st2 x :
  objs st a = Some (t, s) -> func_ptr a st = Ok (p, st1) -> history body a t st1 st2 ->
  exists s' st3, objs st2 a = Some (t, s') /\ call body p x st2 = Ok ((body t s' x).2, st3) /\
    objs st3 a = Some (t, (body t s' x).1) /\ forall b, b <> a -> objs st3 b = objs st2 b.
Proof.
  intros Ha Hp Hh. unfold func_ptr in Hp. rewrite Ha in Hp. simplify_eq.
  assert (inner_ptr st2 p = Some a /\ exists s', objs st2 a = Some (p, s')) as [Hi [s' Hs]].
  { remember (State (objs st) (set p (Some a) (inner_ptr st))) as st1 eqn:E1.
    induction Hh as [st1|st1 st2 o st3 _ IH Hk E].
    - subst. simpl. unfold set. rewrite decide_True by done. eauto.
    - destruct (IH E1) as [Hi [s' Hs]]. clear IH. destruct o as [b u s0|b s0|b y|b|b|q y]; simpl in E.
      + destruct (objs st2 b) eqn:Eb; [done|]. simplify_eq. split; [done|]. simpl. unfold set. case_decide; [congruence|eauto].
      + destruct (objs st2 b) as [[u s1]|] eqn:Eb; [|done]. simplify_eq. split; [done|]. simpl. unfold set. case_decide; [|eauto].
        subst. rewrite Hs in Eb. simplify_eq. eauto.
      + destruct (objs st2 b) as [[u s1]|] eqn:Eb; [|done]. simplify_eq. split; [done|]. simpl. unfold set. case_decide; [|eauto].
        subst. rewrite Hs in Eb. simplify_eq. eauto.
      + simplify_eq. simpl in Hk. split; [done|]. simpl. unfold set. rewrite decide_False by congruence. eauto.
      + unfold func_ptr in E. destruct (objs st2 b) as [[u s1]|] eqn:Eb; simpl in E; [|done]. simplify_eq. simpl. split; [|eauto].
        unfold set. case_decide; [|done]. subst. destruct Hk as [->|Hk]; [done|]. by apply Hk in Eb.
      + unfold call in E. destruct (inner_ptr st2 q) as [b|] eqn:Eq; simpl in E; [|done].
        destruct (objs st2 b) as [[u s1]|] eqn:Eb; simpl in E; [|done]. case_decide; [|done]. subst.
        destruct (body q s1 y) as [s2 r] eqn:Ey. simpl in E. simplify_eq. simpl. split; [done|]. unfold set. case_decide; [|eauto].
        subst. rewrite Hs in Eb. simplify_eq. eauto. }
  exists s'. unfold call. rewrite Hi, Hs, decide_True by done. destruct (body p s' x) as [s2 r]. eexists. split_and!; [done|done|..].
  - simpl. unfold set. by rewrite decide_True.
  - intros b Hb. simpl. unfold set. by rewrite decide_False.
Qed.
Print Assumptions C78_last_callable_partial.

(** A counter, and another type of callable in between. *)
Example C78_example :
  let body := fun (_ s : nat) (x : nat) => (s + x, s + x) in
  let st0 := State (fun a => if decide (a = 0) then Some (9, 100) else None) (fun _ => None) in
  let st1 := State (objs st0) (set 9 (Some 0) (inner_ptr st0)) in
  let st2 := State (set 1 (Some (8, 50)) (objs st1)) (inner_ptr st1) in
  func_ptr 0 st0 = Ok (9, st1) /\
  history body 0 9 st1 (State (objs st2) (set 8 (Some 1) (inner_ptr st2))).
Proof.
  intros body st0 st1 st2. split; [reflexivity|].
  eapply (history_step _ _ _ _ st2 (FuncPtr 1)); [|right; intros s H; discriminate H|reflexivity].
  eapply (history_step _ _ _ _ st1 (Create 1 8 50)); [constructor|exact I|reflexivity].
Qed.
