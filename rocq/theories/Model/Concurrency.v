(** Model of /repo/include/efp/concurrency.hpp: BlockingQ, NonBlockingQ and DoubleBuffer shared by
    any number of threads.

    Each class is a labelled transition system. A thread is at a program point; one step of one
    thread is one lock, unlock, wait, notify or access to shared data. Threads that are in no call
    may start any operation at any time, so every program is covered. std::mutex is its owner, a
    condition variable is the set of threads that wait on it; a waiting thread may wake up
    spuriously. std::queue and Vcq are lists (C11), [cap] is the capacity of the Vcq, [None] for
    std::queue. Simplifications: accesses are interleaved (no weak memory); instead, conflicting
    accesses that can happen at once are data races. Copies of elements do not throw. *)
From Verif Require Import Base.Cpp Spec.ConcurrencySpec.

Section queues.
Context {A : Type} (cap : option nat).
Notation event := (event (qcall A) (qret A)).

(** ** Threads *)

(** The next step of the thread: of enqueue (lock, push, notify, unlock), of BlockingQ::dequeue
    (lock, test, wait, waiting, front, pop, unlock), of NonBlockingQ::dequeue, of is_empty. *)
Inductive pc : Type :=
| Idle
| ELock (v : A) | EPush (v : A) | ENotify | EUnlock
| DLock | DTest | DWait | DWaiting | DFront | DPop (v : A) | DUnlock (v : A)
| TLock | TTest | TFront | TPop (v : A) | TUnlock (r : option A)
| IRead | IReturn (b : bool).

(** A step: a thread in no call starts [o]; it goes on; its notify_one wakes thread [w], or nobody;
    it wakes up spuriously. *)
Inductive act : Type := Start (o : qcall A) | Go | Wake (w : option nat) | Spurious.

(** The queue, the owner of the mutex, the threads. *)
Record state : Type := State { q : list A; owner : option nat; threads : list pc }.

(** Thread [i] goes to [p]; it takes, or releases, the mutex as well. *)
Definition goto (i : nat) (p : pc) (s : state) : state := State (q s) (owner s) (<[i := p]> (threads s)).
Definition with_q (q' : list A) (s : state) : state := State q' (owner s) (threads s).
Definition acquire (i : nat) (p : pc) (s : state) : option (res (state * list event)) :=
  match owner s with
  | None => Some (Ok (goto i p (State (q s) (Some i) (threads s)), []))
  | Some _ => None
  end.
Definition release (s : state) : state := State (q s) None (threads s).
(** std::queue::push; Vcq::push_back (cyclic.hpp:276-295), which drops the oldest element when full. *)
Definition push_back (l : list A) (v : A) : list A :=
  match cap with
  | None => l ++ [v]
  | Some n => if decide (length l = n) then tail l ++ [v] else l ++ [v]
  end.
Definition is_waiting (p : pc) : bool := match p with DWaiting => true | _ => false end.

(** ** BlockingQ, lines 28-107 *)
(** enqueue, 45-49 and 84-88; dequeue, 53-60 and 92-101. In the fixed-capacity class front and pop
    are one call of Vcq::pop_front. *)
Definition blocking_step (i : nat) (a : act) (s : state) : option (res (state * list event)) :=
  match threads s !! i with
  | None => None
  | Some p =>
      match p, a with
      | Idle, Start (Enq v) => Some (Ok (goto i (ELock v) s, [Call i (Enq v)]))
      | Idle, Start Deq => Some (Ok (goto i DLock s, [Call i Deq]))
      (* enqueue *)
      | ELock v, Go => acquire i (EPush v) s
      | EPush v, Go => Some (Ok (goto i ENotify (with_q (push_back (q s) v) s), []))
      | ENotify, Wake None =>
          if existsb is_waiting (threads s) then None else Some (Ok (goto i EUnlock s, []))
      | ENotify, Wake (Some w) =>
          match threads s !! w with
          | Some DWaiting => Some (Ok (goto i EUnlock (goto w DLock s), []))
          | _ => None
          end
      | EUnlock, Go => Some (Ok (goto i Idle (release s), [Ret i Done]))
      (* dequeue *)
      | DLock, Go => acquire i DTest s
      | DTest, Go => Some (Ok (goto i (match q s with [] => DWait | _ => DFront end) s, []))
      | DWait, Go => Some (Ok (goto i DWaiting (release s), []))
      | DWaiting, Spurious => Some (Ok (goto i DLock s, []))
      | DFront, Go =>
          match q s with
          | [] => Some (UB OutOfBounds)
          | v :: _ => Some (Ok (goto i (DPop v) s, []))
          end
      | DPop v, Go =>
          match q s with
          | [] => Some (UB OutOfBounds)
          | _ :: q' => Some (Ok (goto i (DUnlock v) (with_q q' s), []))
          end
      | DUnlock v, Go => Some (Ok (goto i Idle (release s), [Ret i (Got v)]))
      | _, _ => None
      end
  end.

(** ** NonBlockingQ, lines 109-191 *)
(** enqueue, 125-128 and 166-169; is_empty, 130-132 and 171-173, without the mutex; dequeue,
    136-143 and 177-186. *)
Definition nonblocking_step (i : nat) (a : act) (s : state) : option (res (state * list event)) :=
  match threads s !! i with
  | None => None
  | Some p =>
      match p, a with
      | Idle, Start (Enq v) => Some (Ok (goto i (ELock v) s, [Call i (Enq v)]))
      | Idle, Start TryDeq => Some (Ok (goto i TLock s, [Call i TryDeq]))
      | Idle, Start IsEmpty => Some (Ok (goto i IRead s, [Call i IsEmpty]))
      (* enqueue *)
      | ELock v, Go => acquire i (EPush v) s
      | EPush v, Go => Some (Ok (goto i EUnlock (with_q (push_back (q s) v) s), []))
      | EUnlock, Go => Some (Ok (goto i Idle (release s), [Ret i Done]))
      (* dequeue *)
      | TLock, Go => acquire i TTest s
      | TTest, Go => Some (Ok (goto i (match q s with [] => TUnlock None | _ => TFront end) s, []))
      | TFront, Go =>
          match q s with
          | [] => Some (UB OutOfBounds)
          | v :: _ => Some (Ok (goto i (TPop v) s, []))
          end
      | TPop v, Go =>
          match q s with
          | [] => Some (UB OutOfBounds)
          | _ :: q' => Some (Ok (goto i (TUnlock (Some v)) (with_q q' s), []))
          end
      | TUnlock r, Go => Some (Ok (goto i Idle (release s), [Ret i (Maybe r)]))
      (* is_empty *)
      | IRead, Go => Some (Ok (goto i (IReturn (match q s with [] => true | _ => false end)) s, []))
      | IReturn b, Go => Some (Ok (goto i Idle s, [Ret i (Bool b)]))
      | _, _ => None
      end
  end.

(** ** Executions *)

(** [n] threads in no call, an empty queue. *)
Definition init (n : nat) : state := State [] None (replicate n Idle).

(** States, and histories of calls and returns, that [n] threads can produce. *)
Inductive reach (step : nat -> act -> state -> option (res (state * list event))) (n : nat)
  : state -> list event -> Prop :=
| reach_init : reach step n (init n) []
| reach_step s h i a s' e : reach step n s h -> step i a s = Some (Ok (s', e)) -> reach step n s' (h ++ e).

(** Steps of the calls in progress: no new call, no spurious wake-up. [runs step k s s'] if [k] such
    steps lead from [s] to [s']. *)
Definition internal (a : act) : Prop := match a with Go | Wake _ => True | _ => False end.
Inductive runs (step : nat -> act -> state -> option (res (state * list event))) : nat -> state -> state -> Prop :=
| runs_0 s : runs step 0 s s
| runs_S k s i a s1 e s2 : internal a -> step i a s = Some (Ok (s1, e)) -> runs step k s1 s2 -> runs step (S k) s s2.

(** ** Data races *)

(** How the next step of a thread touches the queue. *)
Inductive access : Type := Reads | Writes.
Definition touches (p : pc) : option access :=
  match p with
  | EPush _ | DPop _ | TPop _ => Some Writes
  | DTest | DFront | TTest | TFront | IRead => Some Reads
  | _ => None
  end.
(** Two threads can touch the queue at once and one of them writes. *)
Definition race (s : state) : Prop :=
  exists i j p p' a, i <> j /\ threads s !! i = Some p /\ threads s !! j = Some p' /\
    touches p = Some Writes /\ touches p' = Some a.
End queues.
Arguments pc : clear implicits. Arguments act : clear implicits. Arguments state : clear implicits.

(** ** DoubleBuffer, lines 193-252 *)
Section double_buffer.
Context {A : Type} (n : nat).
Notation event := (event (bcall A) (qret A)).

(** enqueue, 214-218: lock, push, unlock; swap_buffer, 220-224: lock, the three assignments of swap
    (meta.hpp:754-758), unlock; dequeue, 226-228; empty, 230-232. *)
Inductive bpc : Type :=
| BIdle
| BELock (v : A) | BEPush (v : A) | BEUnlock
| BSLock | BSTemp | BSWrite (temp : bool) | BSRead (temp : bool) | BSUnlock
| BDPop | BDReturn (v : A)
| BMRead | BMReturn (b : bool).
Inductive bact : Type := BStart (o : bcall A) | BGo.

(** The two buffers; the pointers _read_buffer and _write_buffer; the owner of the spin lock (a
    thread that does not get it keeps trying); the threads. *)
Record bstate : Type := BState {
  buf : bool -> list A; rd : bool; wr : bool; bowner : option nat; bthreads : list bpc }.

Definition bgoto (i : nat) (p : bpc) (s : bstate) : bstate :=
  BState (buf s) (rd s) (wr s) (bowner s) (<[i := p]> (bthreads s)).
Definition bacquire (i : nat) (p : bpc) (s : bstate) : option (res (bstate * list event)) :=
  match bowner s with
  | None => Some (Ok (bgoto i p (BState (buf s) (rd s) (wr s) (Some i) (bthreads s)), []))
  | Some _ => None
  end.
Definition brelease (s : bstate) : bstate := BState (buf s) (rd s) (wr s) None (bthreads s).
Definition set_buf (b : bool) (l : list A) (s : bstate) : bstate :=
  BState (fun c => if Bool.eqb c b then l else buf s c) (rd s) (wr s) (bowner s) (bthreads s).
Definition set_wr (b : bool) (s : bstate) : bstate := BState (buf s) (rd s) b (bowner s) (bthreads s).
Definition set_rd (b : bool) (s : bstate) : bstate := BState (buf s) b (wr s) (bowner s) (bthreads s).

Definition buffer_step (i : nat) (a : bact) (s : bstate) : option (res (bstate * list event)) :=
  match bthreads s !! i with
  | None => None
  | Some p =>
      match p, a with
      | BIdle, BStart o =>
          Some (Ok (bgoto i (match o with BEnq v => BELock v | BSwap => BSLock | BDeq => BDPop | BEmpty => BMRead end) s,
                    [Call i o]))
      (* enqueue *)
      | BELock v, BGo => bacquire i (BEPush v) s
      | BEPush v, BGo => Some (Ok (bgoto i BEUnlock (set_buf (wr s) (push_back (Some n) (buf s (wr s)) v) s), []))
      | BEUnlock, BGo => Some (Ok (bgoto i BIdle (brelease s), [Ret i Done]))
      (* swap_buffer: temp = _write_buffer, _write_buffer = _read_buffer, _read_buffer = temp *)
      | BSLock, BGo => bacquire i BSTemp s
      | BSTemp, BGo => Some (Ok (bgoto i (BSWrite (wr s)) s, []))
      | BSWrite t, BGo => Some (Ok (bgoto i (BSRead t) (set_wr (rd s) s), []))
      | BSRead t, BGo => Some (Ok (bgoto i BSUnlock (set_rd t s), []))
      | BSUnlock, BGo => Some (Ok (bgoto i BIdle (brelease s), [Ret i Done]))
      (* dequeue *)
      | BDPop, BGo =>
          match buf s (rd s) with
          | [] => Some (UB OutOfBounds)
          | v :: l => Some (Ok (bgoto i (BDReturn v) (set_buf (rd s) l s), []))
          end
      | BDReturn v, BGo => Some (Ok (bgoto i BIdle s, [Ret i (Got v)]))
      (* empty *)
      | BMRead, BGo => Some (Ok (bgoto i (BMReturn (match buf s (rd s) with [] => true | _ => false end)) s, []))
      | BMReturn b, BGo => Some (Ok (bgoto i BIdle s, [Ret i (Bool b)]))
      | _, _ => None
      end
  end.

(** Constructor, 198-199. *)
Definition binit (k : nat) : bstate := BState (fun _ => []) false true None (replicate k BIdle).

(** Executions of [k] threads in which every step satisfies [may]. *)
Inductive breach (may : nat -> bact -> bstate -> Prop) (k : nat) : bstate -> list event -> Prop :=
| breach_init : breach may k (binit k) []
| breach_step s h i a s' e : breach may k s h -> may i a s ->
    buffer_step i a s = Some (Ok (s', e)) -> breach may k s' (h ++ e).

(** Ways to use the buffer. Only thread [c] swaps, dequeues and tests, and it dequeues only when
    there is something to dequeue (concurrency.hpp documents nothing; Vcq::pop_front is "Undefined if
    empty", cyclic.hpp:297). *)
Definition single_consumer (c : nat) (i : nat) (a : bact) (s : bstate) : Prop :=
  match a with
  | BStart BDeq => i = c /\ buf s (rd s) <> []
  | BStart BSwap | BStart BEmpty => i = c
  | BStart (BEnq _) | BGo => True
  end.
(** And it swaps only when the read side is empty, and nobody writes to a full buffer. *)
Definition drained (c : nat) (i : nat) (a : bact) (s : bstate) : Prop :=
  single_consumer c i a s /\
  match a with
  | BStart BSwap => buf s (rd s) = []
  | BGo => forall v, bthreads s !! i = Some (BEPush v) -> length (buf s (wr s)) < n
  | _ => True
  end.

(** What the next step of a thread touches: the two pointers, the two buffers. *)
Inductive location : Type := ReadPointer | WritePointer | Buffer (b : bool).
Definition btouches (s : bstate) (p : bpc) : list (location * access) :=
  match p with
  | BEPush _ => [(WritePointer, Reads); (Buffer (wr s), Writes)]
  | BSTemp => [(WritePointer, Reads)]
  | BSWrite _ => [(ReadPointer, Reads); (WritePointer, Writes)]
  | BSRead _ => [(ReadPointer, Writes)]
  | BDPop => [(ReadPointer, Reads); (Buffer (rd s), Writes)]
  | BMRead => [(ReadPointer, Reads); (Buffer (rd s), Reads)]
  | _ => []
  end.
Definition brace (s : bstate) : Prop :=
  exists i j p p' l a, i <> j /\ bthreads s !! i = Some p /\ bthreads s !! j = Some p' /\
    (l, Writes) ∈ btouches s p /\ (l, a) ∈ btouches s p'.
End double_buffer.
Arguments bpc : clear implicits. Arguments bact : clear implicits. Arguments bstate : clear implicits.
