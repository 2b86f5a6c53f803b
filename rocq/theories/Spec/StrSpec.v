(** What a string of characters does, and how a String is observed. *)
From Verif Require Import Base.Cpp Base.Mem Model.Vector Model.Str Spec.VectorSpec.

(** A C string: the characters up to the terminator, then the terminator. *)
Definition c_string (cs : list nat) : list nat := cs ++ [0].
(** No terminator among the characters. *)
Definition nul_free (cs : list nat) : Prop := Forall (fun c => c <> 0) cs.

(** Operations on character lists; [cs] are the characters of a C string argument, [buf] a
    character array. *)
Inductive chars_op : Type :=
| CBase (o : @vop nat)
| CAppend (cs : list nat) | CAppendN (n c : nat)
| CAssign (cs : list nat) | CAssignN (n c : nat)
| CInsert (pos : nat) (cs : list nat) | CInsertN (pos : nat) (buf : list nat) (n : nat).

(** The call that performs the operation. *)
Definition call (o : chars_op) : strop :=
  match o with
  | CBase o => TBase o
  | CAppend cs => TAppend (c_string cs)
  | CAppendN n c => TAppendN n c
  | CAssign cs => TAssign (c_string cs)
  | CAssignN n c => TAssignN n c
  | CInsert pos cs => TInsert pos (c_string cs)
  | CInsertN pos buf n => TInsertN pos buf n
  end.

Definition chars_step (o : chars_op) (l : list nat) : @lres nat :=
  match o with
  | CBase (VInsert _ _) => LUndef     (* hidden by the two inserts below *)
  | CBase o => list_op o l
  | CAppend cs => if decide (nul_free cs) then LOk (l ++ cs) else LUndef
  | CAppendN n c => LOk (l ++ replicate n c)
  | CAssign cs => if decide (nul_free cs) then LOk cs else LUndef
  | CAssignN n c => LOk (replicate n c)
  | CInsert pos cs =>
      if decide (nul_free cs) then
        if decide (pos <= length l) then LOk (take pos l ++ cs ++ drop pos l) else LThrow
      else LUndef
  | CInsertN pos buf n =>
      if decide (n <= length buf) then
        if decide (pos <= length l) then LOk (take pos l ++ take n buf ++ drop pos l) else LThrow
      else LUndef
  end.

Fixpoint chars_run (ops : list chars_op) (l : list nat) : option (list bool * list nat) :=
  match ops with
  | [] => Some ([], l)
  | o :: ops' =>
      match chars_step o l with
      | LOk l' => match chars_run ops' l' with Some (ts, f) => Some (false :: ts, f) | None => None end
      | LThrow => match chars_run ops' l with Some (ts, f) => Some (true :: ts, f) | None => None end
      | LUndef => None
      end
  end.

(** Ways to build a String. *)
Inductive sinit : Type :=
| IDefault | IList (xs : list nat) | ICstr (cs : list nat) | ICount (buf : list nat) (n : nat) | IFill (n c : nat).

Definition sinit_ok (i : sinit) : Prop :=
  match i with ICstr cs => nul_free cs | ICount buf n => n <= length buf | _ => True end.
Definition sinit_chars (i : sinit) : list nat :=
  match i with
  | IDefault => [] | IList xs => xs | ICstr cs => cs | ICount buf n => take n buf | IFill n c => replicate n c
  end.
Definition str_built (i : sinit) (m : mem nat) : res (vec * mem nat) :=
  match i with
  | IDefault => Ok (vec_new, m)
  | IList xs => vec_of_list chr xs m
  | ICstr cs => str_of_cstr (c_string cs) m
  | ICount buf n => str_new (get buf) n m
  | IFill n c => str_fill n c m
  end.

Definition str_after (i : sinit) (ops : list chars_op) (m0 : mem nat) (ts : list bool) (s : vec) (m : mem nat) : Prop :=
  exists s0 m1, str_built i m0 = Ok (s0, m1) /\ str_run (call <$> ops) s0 m1 = Ok (ts, s, m).

(** Lexicographic comparison of whole strings: negative, zero, positive. *)
Fixpoint lex (xs ys : list nat) : Z :=
  match xs, ys with
  | [], [] => 0
  | [], _ :: _ => -1
  | _ :: _, [] => 1
  | x :: xs', y :: ys' => if decide (x < y) then -1 else if decide (y < x) then 1 else lex xs' ys'
  end.

(** The buffer at a data pointer starts with [cs]. *)
Definition buffer_holds (p : ptr) (m : mem nat) (cs : list nat) : Prop :=
  forall i c, cs !! i = Some c -> pread m p i = Ok c.

(** Operations that always leave room for a terminator. *)
Definition leaves_room (o : chars_op) : bool :=
  match o with CInsert _ _ => false | _ => true end.
Definition init_room (i : sinit) : bool := match i with IFill _ _ => false | _ => true end.

(** Two strings in one program: [s] built and used first, then [o]. *)
Definition two_strings (i1 : sinit) (ops1 : list chars_op) (i2 : sinit) (ops2 : list chars_op)
    (s o : vec) (m : mem nat) : Prop :=
  exists ts1 ts2 m1, str_after i1 ops1 mem0 ts1 s m1 /\ str_after i2 ops2 m1 ts2 o m.
