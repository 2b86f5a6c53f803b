(** Abstract bounded queue and sliding window. *)
From Verif Require Import Base.Cpp Base.Mem Model.Cyclic.

Section spec.
Context {A : Type}.

(** A queue of at most [cap] elements, oldest first; pushing on a full one drops the oldest.
    [None] if an empty queue is popped. *)
Fixpoint bounded_queue (cap : nat) (q : list A) (ops : list (@qop A)) : option (list A * list A) :=
  match ops with
  | [] => Some ([], q)
  | QPush a :: ops' =>
      bounded_queue cap (if decide (length q = cap) then tail q ++ [a] else q ++ [a]) ops'
  | QPop :: ops' =>
      match q with
      | [] => None
      | x :: q' =>
          match bounded_queue cap q' ops' with
          | Some (popped, final) => Some (x :: popped, final)
          | None => None
          end
      end
  end.

(** The last [n] values of the stream d, d, ..., d (n times), vs. *)
Definition last_n (n : nat) (d : A) (vs : list A) : list A :=
  drop (length vs) (replicate n d ++ vs).

Definition is_push (o : @qop A) : bool := match o with QPush _ => true | QPop => false end.
Definition pushes (ops : list (@qop A)) : nat := length (List.filter is_push ops).

(** ** Observations *)
(** size() is n and indexing 0..n-1 gives w. *)
Definition vcb_reads (n : nat) (s : vcb) (m : mem A) (w : list A) : Prop :=
  vcb_size n s = n /\ length w = n /\ forall i x, w !! i = Some x -> vcb_get s i m = Ok x.

(** size() and empty() agree with xs, and indexing 0..size()-1 gives xs. *)
Definition vcq_reads (q : vcq) (m : mem A) (xs : list A) : Prop :=
  vcq_size q = length xs /\ (vcq_empty q = true <-> xs = []) /\
  forall i x, xs !! i = Some x -> vcq_get q i m = Ok x.

(** ** Reachable objects *)
(** [s] is a Vcb default-constructed in memory [m0] after pushing [vs]; [m] is the memory then. *)
Definition vcb_after (E : ety A) (n : nat) (d : A) (vs : list A) (m0 : mem A) (s : vcb) (m : mem A)
  : Prop :=
  exists s0 m1, vcb_new E n d m0 = Ok (s0, m1) /\ vcb_pushes E n s0 vs m1 = Ok (s, m).

(** [q] is a Vcq default-constructed in [m0] after the operations [ops], which popped [outs]. *)
Definition vcq_after (E : ety A) (n : nat) (ops : list (@qop A)) (m0 : mem A)
    (outs : list A) (q : vcq) (m : mem A) : Prop :=
  exists q0 m1, vcq_new n m0 = (q0, m1) /\ vcq_run E n ops q0 m1 = Ok (outs, q, m).
End spec.
