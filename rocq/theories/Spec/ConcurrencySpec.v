(** Concurrent histories, linearizability and sequential queues. *)
From Verif Require Import Base.Cpp.

(** ** Histories *)

(** Thread [i] calls operation [o]; a call of thread [i] returns [r]. *)
Inductive event (O R : Type) : Type := Call (i : nat) (o : O) | Ret (i : nat) (r : R).
Arguments Call {O R}. Arguments Ret {O R}.

(** Linearizability: one can insert in the history, between the call and the return of every
    operation, a point [Lin] where it takes effect, such that the operations in the order of these
    points are an execution of the sequential specification. *)
Inductive levent (O R : Type) : Type := Vis (e : event O R) | Lin (i : nat) (o : O) (r : R).
Arguments Vis {O R}. Arguments Lin {O R}.

Section lin.
Context {O R S : Type}.

Definition visible (tr : list (levent O R)) : list (event O R) :=
  omap (fun e => match e with Vis e => Some e | Lin _ _ _ => None end) tr.
Definition points (tr : list (levent O R)) : list (O * R) :=
  omap (fun e => match e with Vis _ => None | Lin _ o r => Some (o, r) end) tr.

(** A thread is not in a call, has called [o], or has performed an operation which gave [r]. *)
Inductive status : Type := Free | Called (o : O) | Took (r : R).
Definition set_status (f : nat -> status) (i : nat) (x : status) : nat -> status :=
  fun j => if decide (j = i) then x else f j.

Inductive follows : (nat -> status) -> list (levent O R) -> (nat -> status) -> Prop :=
| follows_nil f : follows f [] f
| follows_call f f' tr i o : follows f tr f' -> f' i = Free ->
    follows f (tr ++ [Vis (Call i o)]) (set_status f' i (Called o))
| follows_lin f f' tr i o r : follows f tr f' -> f' i = Called o ->
    follows f (tr ++ [Lin i o r]) (set_status f' i (Took r))
| follows_ret f f' tr i r : follows f tr f' -> f' i = Took r ->
    follows f (tr ++ [Vis (Ret i r)]) (set_status f' i Free).

(** [spec o s] is what [o] does in state [s]; [None] if it cannot take place. *)
Fixpoint executes (spec : O -> S -> option (S * R)) (s : S) (ops : list (O * R)) (s' : S) : Prop :=
  match ops with
  | [] => s' = s
  | (o, r) :: ops => exists s1, spec o s = Some (s1, r) /\ executes spec s1 ops s'
  end.

Definition linearizes spec (s0 : S) (h : list (event O R)) (ops : list (O * R)) (s : S) : Prop :=
  exists tr f, visible tr = h /\ points tr = ops /\ follows (fun _ => Free) tr f /\ executes spec s0 ops s.
End lin.

(** ** Sequential queues *)
Section queues.
Context {A : Type}.

Inductive qcall : Type := Enq (v : A) | Deq | TryDeq | IsEmpty.
Inductive qret : Type := Done | Got (v : A) | Maybe (v : option A) | Bool (b : bool).

(** Pushing on a full bounded queue drops the oldest element. *)
Definition push_queue (cap : option nat) (q : list A) (v : A) : list A :=
  match cap with
  | None => q ++ [v]
  | Some n => if decide (length q = n) then tail q ++ [v] else q ++ [v]
  end.

Definition queue_spec (cap : option nat) (o : qcall) (q : list A) : option (list A * qret) :=
  match o with
  | Enq v => Some (push_queue cap q v, Done)
  | Deq => match q with [] => None | v :: q' => Some (q', Got v) end
  | TryDeq => match q with [] => Some ([], Maybe None) | v :: q' => Some (q', Maybe (Some v)) end
  | IsEmpty => Some (q, Bool (match q with [] => true | _ => false end))
  end.

(** The values put in and taken out by a sequence of operations. *)
Definition put_in (ops : list (qcall * qret)) : list A :=
  omap (fun x => match x.1 with Enq v => Some v | _ => None end) ops.
Definition taken_out (ops : list (qcall * qret)) : list A :=
  omap (fun x => match x.2 with Got v | Maybe (Some v) => Some v | _ => None end) ops.

(** The values that leave a queue of capacity [n], in order: [true] if dequeued, [false] if dropped
    because an element was put in the full queue. *)
Fixpoint departures (n : nat) (q : list A) (ops : list (qcall * qret)) : list (bool * A) :=
  match ops with
  | [] => []
  | (Enq v, _) :: ops =>
      (if decide (length q = n) then pair false <$> take 1 q else []) ++ departures n (push_queue (Some n) q v) ops
  | (Deq, _) :: ops | (TryDeq, _) :: ops => (pair true <$> take 1 q) ++ departures n (drop 1 q) ops
  | (IsEmpty, _) :: ops => departures n q ops
  end.

(** Two buffers, one being read and one being written; swap_buffer exchanges them. *)
Inductive bcall : Type := BEnq (v : A) | BSwap | BDeq | BEmpty.
Definition buffer_spec (n : nat) (o : bcall) (s : list A * list A) : option ((list A * list A) * qret) :=
  let '(r, w) := s in
  match o with
  | BEnq v => Some ((r, push_queue (Some n) w v), Done)
  | BSwap => Some ((w, r), Done)
  | BDeq => match r with [] => None | v :: r' => Some ((r', w), Got v) end
  | BEmpty => Some ((r, w), Bool (match r with [] => true | _ => false end))
  end.
Definition b_put_in (ops : list (bcall * qret)) : list A :=
  omap (fun x => match x.1 with BEnq v => Some v | _ => None end) ops.
Definition b_taken_out (ops : list (bcall * qret)) : list A :=
  omap (fun x => match x.2 with Got v => Some v | _ => None end) ops.
End queues.
Arguments qcall : clear implicits. Arguments qret : clear implicits. Arguments bcall : clear implicits.
