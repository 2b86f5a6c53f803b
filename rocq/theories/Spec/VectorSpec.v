(** What a growable list does, and how a Vector is observed. *)
From Verif Require Import Base.Cpp Base.Mem Model.Vector.

Section spec.
Context {A : Type}.

(** Effect of one operation on a list: new list, an exception, or (element write out of
    range) a broken precondition. *)
Inductive lres : Type := LOk (l : list A) | LThrow | LUndef.

Definition list_op (o : @vop A) (l : list A) : lres :=
  match o with
  | VPush a => LOk (l ++ [a])
  | VPop => match l with [] => LThrow | _ => LOk (removelast l) end
  | VInsert i a => if decide (i <= length l) then LOk (take i l ++ a :: drop i l) else LThrow
  | VErase i => if decide (i < length l) then LOk (take i l ++ drop (S i) l) else LThrow
  | VClear => LOk []
  | VReserve _ => LOk l
  | VShrink => LOk l
  | VSet i a => if decide (i < length l) then LOk (<[i := a]> l) else LUndef
  end.

(** A history on a list: flags for the throwing operations, and the final list; an operation
    that throws leaves the list alone.  [None]: a precondition was broken. *)
Fixpoint list_run (ops : list (@vop A)) (l : list A) : option (list bool * list A) :=
  match ops with
  | [] => Some ([], l)
  | o :: ops' =>
      match list_op o l with
      | LOk l' => match list_run ops' l' with Some (ts, f) => Some (false :: ts, f) | None => None end
      | LThrow => match list_run ops' l with Some (ts, f) => Some (true :: ts, f) | None => None end
      | LUndef => None
      end
  end.

(** Does the history, started on [l], insert or erase anywhere but at the end? *)
Definition at_end (o : @vop A) (l : list A) : bool :=
  match o with
  | VInsert i _ => bool_decide (length l <= i)
  | VErase i => bool_decide (length l <= S i)
  | _ => true
  end.
Fixpoint all_at_end (ops : list (@vop A)) (l : list A) : bool :=
  match ops with
  | [] => true
  | o :: ops' =>
      at_end o l &&
      match list_op o l with
      | LOk l' => all_at_end ops' l'
      | LThrow => all_at_end ops' l
      | LUndef => true
      end
  end.

(** size(), indexing and iteration give [xs]. *)
Definition vec_reads (v : vec) (m : mem A) (xs : list A) : Prop :=
  v_size v = length xs /\ (forall i x, xs !! i = Some x -> vec_get v i m = Ok x) /\
  vec_iter v m = Ok xs.

(** A Vector built by the default constructor, or from values (initializer list, Array, ArrVec). *)
Definition vec_built (E : ety A) (init : option (list A)) (m : mem A) : res (vec * mem A) :=
  match init with None => Ok (vec_new, m) | Some xs => vec_of_list E xs m end.
Definition init_list (init : option (list A)) : list A :=
  match init with None => [] | Some xs => xs end.

(** [v] in [m] results from building and then a history [ops], with throws [ts]. *)
Definition vec_after (E : ety A) (init : option (list A)) (ops : list (@vop A)) (m0 : mem A)
    (ts : list bool) (v : vec) (m : mem A) : Prop :=
  exists v0 m1, vec_built E init m0 = Ok (v0, m1) /\ vec_run E ops v0 m1 = Ok (ts, v, m).

(** The same program on mathematical lists.  The flag of a list says whether the vector has
    obtained storage since it was constructed or moved from. *)
Definition obtains (o : @vop A) : bool :=
  match o with
  | VPush _ | VInsert _ _ | VShrink => true
  | VReserve k => bool_decide (0 < k)
  | _ => false
  end.

Definition lists_step (o : @sop A) (ls : list (list A * bool)) : option (list (list A * bool)) :=
  match o with
  | SNew => Some (ls ++ [([], false)])
  | SOf xs => Some (ls ++ [(xs, true)])
  | SCopy i => match ls !! i with Some (xs, true) => Some (ls ++ [(xs, true)]) | _ => None end
  | SMove i => match ls !! i with
               | Some p => Some (<[i := ([], false)]> ls ++ [p]) | None => None end
  | SMoveAssign i j =>
      match ls !! i, ls !! j with
      | Some _, Some p => Some (if decide (i = j) then ls else <[i := p]> (<[j := ([], false)]> ls))
      | _, _ => None
      end
  | SOp i o =>
      match ls !! i with
      | Some (xs, f) =>
          match list_op o xs with
          | LOk ys => Some (<[i := (ys, f || obtains o)]> ls)
          | LThrow => Some ls
          | LUndef => None
          end
      | None => None
      end
  end.
Fixpoint lists_run (p : list (@sop A)) (ls : list (list A * bool)) : option (list (list A * bool)) :=
  match p with
  | [] => Some ls
  | o :: p' => match lists_step o ls with Some ls' => lists_run p' ls' | None => None end
  end.

(** No statement of the program inserts or erases anywhere but at the end. *)
Fixpoint sys_at_end (p : list (@sop A)) (ls : list (list A * bool)) : bool :=
  match p with
  | [] => true
  | o :: p' =>
      match o with
      | SOp i o' => match ls !! i with Some (xs, _) => at_end o' xs | None => true end
      | _ => true
      end &&
      match lists_step o ls with Some ls' => sys_at_end p' ls' | None => true end
  end.

(** Number of allocations not yet released. *)
Definition allocations (m : mem A) : nat := length (List.filter (fun o => match o with Some _ => true | None => false end) (blocks m)).
End spec.
