(** What the functions of prelude.hpp compute, on lists. *)
From Verif Require Import Base.Cpp Base.Mem Model.Vector Model.Sequence Model.Prelude
  Spec.VectorSpec Spec.SequenceSpec.

(** ** Inputs and results *)

(** [k] can hold [n] elements: an Array exactly its size, an ArrVec at most its capacity. *)
Definition can_hold (k : kind) (n : nat) : Prop :=
  match k with KArray c => n = c | KArrVec c => n <= c | KVector => True end.

(** The sequence [s] in memory [m] has elements [xs]. *)
Definition holds {A} (m : mem A) (s : src) (xs : list A) : Prop :=
  s_len s = length xs /\ can_hold (s_kind s) (length xs) /\
  forall i x, xs !! i = Some x -> nth m s i = Ok x.

(** Size, indexing and iteration of a result give [xs]. *)
Definition cont_reads {A} (c : cont) (m : mem A) (xs : list A) : Prop :=
  cont_size c = length xs /\ (forall i x, xs !! i = Some x -> cont_get c i m = Ok x) /\
  cont_iter c m = Ok xs.

(** The result [c] is of kind [k], holds [xs], and building it left everything else in memory
    [m0] alone. *)
Definition cont_blk (c : cont) : option nat :=
  match c with
  | CArr _ b => Some b
  | CAv _ v => Some (av_blk v)
  | CVec v => match v_data v with Blk b => Some b | _ => None end
  end.
Definition yields {A} (m0 : mem A) (k : kind) (xs : list A) (c : cont) (m : mem A) : Prop :=
  cont_kind c = k /\ cont_reads c m xs /\ can_hold k (length xs) /\
  leaks m = leaks m0 /\ (forall b cs, blk m0 b cs -> blk m b cs /\ cont_blk c <> Some b) /\
  allocations m = allocations m0 + (match cont_blk c with Some _ => 1 | None => 0 end).

(** Element types whose raw storage may be assigned to, or containers that construct all their
    elements. *)
Definition assignable {A} (E : ety A) (k : kind) : Prop :=
  triv E = true \/ exists n, k = KArray n.

(** [code] ends the way [spec] does: with related values, or the same throw, undefined
    behaviour or divergence. *)
Definition same_outcome {X Y} (R : X -> Y -> Prop) (spec : res X) (code : res Y) : Prop :=
  match spec, code with
  | Ok x, Ok y => R x y
  | Throw, Throw => True
  | UB k, UB k' => k = k'
  | Diverge, Diverge => True
  | _, _ => False
  end.

(** ** Effectful list functions *)
Section lists.
Context {X Y W : Type}.

Fixpoint forW (f : X -> W -> res W) (xs : list X) (w : W) : res W :=
  match xs with [] => Ok w | x :: xs' => let* w1 := f x w in forW f xs' w1 end.

Fixpoint mapW (f : X -> W -> res (Y * W)) (xs : list X) (w : W) : res (list Y * W) :=
  match xs with
  | [] => Ok ([], w)
  | x :: xs' => let* (y, w1) := f x w in let* (ys, w2) := mapW f xs' w1 in Ok (y :: ys, w2)
  end.

Fixpoint filterW (f : X -> W -> res (bool * W)) (xs : list X) (w : W) : res (list X * W) :=
  match xs with
  | [] => Ok ([], w)
  | x :: xs' =>
      let* (b, w1) := f x w in
      let* (ys, w2) := filterW f xs' w1 in Ok (if b then x :: ys else ys, w2)
  end.

Fixpoint foldlW (f : Y -> X -> W -> res (Y * W)) (y : Y) (xs : list X) (w : W) : res (Y * W) :=
  match xs with [] => Ok (y, w) | x :: xs' => let* (y1, w1) := f y x w in foldlW f y1 xs' w1 end.

(** The innermost (last) element first. *)
Fixpoint foldrW (f : X -> Y -> W -> res (Y * W)) (y : Y) (xs : list X) (w : W) : res (Y * W) :=
  match xs with [] => Ok (y, w) | x :: xs' => let* (y1, w1) := foldrW f y xs' w in f x y1 w1 end.

(** The longest prefix on which [f] holds; [f] is called up to the first failure. *)
Fixpoint spanW (f : X -> W -> res (bool * W)) (xs : list X) (w : W) : res (list X * list X * W) :=
  match xs with
  | [] => Ok ([], [], w)
  | x :: xs' =>
      let* (b, w1) := f x w in
      if b : bool then let* (p, q, w2) := spanW f xs' w1 in Ok (x :: p, q, w2)
      else Ok ([], xs, w1)
  end.

(** Position of the first element satisfying [f]. *)
Fixpoint findW (f : X -> W -> res (bool * W)) (xs : list X) (w : W) : res (option nat * W) :=
  match xs with
  | [] => Ok (None, w)
  | x :: xs' =>
      let* (b, w1) := f x w in
      if b : bool then Ok (Some 0, w1)
      else let* (o, w2) := findW f xs' w1 in Ok (match o with Some i => Some (S i) | None => None end, w2)
  end.

(** A list with positions, starting at [n]. *)
Fixpoint indexed (n : nat) (xs : list X) : list (nat * X) :=
  match xs with [] => [] | x :: xs' => (n, x) :: indexed (S n) xs' end.
End lists.

(** [rs] is the zip of the lists [ls]: as long as the shortest, the i-th row holding the i-th
    element of every list. *)
Definition zips {A} (ls rs : list (list A)) : Prop :=
  (forall l, l ∈ ls -> length rs <= length l) /\ (exists l, l ∈ ls /\ length l = length rs) /\
  (forall i r, rs !! i = Some r -> Forall2 (fun l x => l !! i = Some x) ls r).

(** All combinations, in lexicographic order, the last list varying fastest. *)
Fixpoint combinations {A} (ls : list (list A)) : list (list A) :=
  match ls with
  | [] => [[]]
  | l :: ls' => l ≫= fun x => (cons x) <$> combinations ls'
  end.

(** [sep] between neighbours. *)
Fixpoint joined {A} (sep : list A) (ls : list (list A)) : list A :=
  match ls with [] => [] | [l] => l | l :: ls' => l ++ sep ++ joined sep ls' end.

(** A sequence of sequences with contents [xss], all inner ones of the declared kind. *)
Definition nholds {A} (m : mem A) (n : nsrc) (xss : list (list A)) : Prop :=
  can_hold (ns_kind n) (length xss) /\
  Forall2 (fun s xs => holds m s xs /\ s_kind s = ns_inner n) (ns_list n) xss.

(** ** Views, mutation, composition *)

(** [v] refers to the elements of [s] from [off] on, whatever the memory holds. *)
Definition window {A} (s : src) (off : nat) (v : src) : Prop :=
  forall (m : mem A) j, j < s_len v -> nth m v j = nth m s (off + j).

(** [v] views the elements [xs] of [s], starting at [off]. *)
Definition views {A} (m : mem A) (s : src) (off : nat) (v : src) (xs : list A) : Prop :=
  holds m v xs /\ @window A s off v.

(** The storage an element lives in. *)
Definition addr (s : src) (i : nat) : option (nat * nat) :=
  match s_data s with CNull => None | CAt b off => Some (b, off + i) end.
(** No element of [s] lives where an element of [t] does. *)
Definition apart (s t : src) : Prop :=
  forall i j a, i < s_len s -> j < s_len t -> addr s i = Some a -> addr t j <> Some a.

(** Column [k] of a table whose rows replace the first elements of [xs]. *)
Definition column {A} (rows : list (list A)) (k : nat) (xs ys : list A) : Prop :=
  length ys = length xs /\
  forall i, ys !! i = match rows !! i with Some row => row !! k | None => xs !! i end.

(** Calling functions one after the other on the previous result. *)
Definition pipeline {X W} (gs : list (X -> W -> res (X * W))) (x : X) (w : W) : res (X * W) :=
  foldlW (fun x g w => g x w) x gs w.
