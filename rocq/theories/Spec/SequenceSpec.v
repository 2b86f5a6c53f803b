(** Bounded lists, and how Array, ArrVec and views are observed. *)
From Verif Require Import Base.Cpp Base.Mem Model.Vector Model.Sequence Spec.VectorSpec.

Section spec.
Context {A : Type}.

(** A list of at most [cap] elements. *)
Definition blist_op (cap : nat) (o : @avop A) (l : list A) : @lres A :=
  match o with
  | APush a => if decide (length l < cap) then LOk (l ++ [a]) else LThrow
  | APop => match l with [] => LThrow | _ => LOk (removelast l) end
  | AInsert i a =>
      if decide (i <= length l /\ length l < cap) then LOk (take i l ++ a :: drop i l) else LThrow
  | AErase i => if decide (i < length l) then LOk (take i l ++ drop (S i) l) else LThrow
  | AClear => LOk []
  | ASet i a => if decide (i < length l) then LOk (<[i := a]> l) else LUndef
  end.

Fixpoint blist_run (cap : nat) (ops : list (@avop A)) (l : list A) : option (list bool * list A) :=
  match ops with
  | [] => Some ([], l)
  | o :: ops' =>
      match blist_op cap o l with
      | LOk l' => match blist_run cap ops' l' with Some (ts, f) => Some (false :: ts, f) | None => None end
      | LThrow => match blist_run cap ops' l with Some (ts, f) => Some (true :: ts, f) | None => None end
      | LUndef => None
      end
  end.

(** An ArrVec built empty, or from an initializer list. *)
Definition av_built (E : ety A) (cap : nat) (init : option (list A)) (m : mem A) : res (arrvec * mem A) :=
  match init with None => Ok (av_new cap m) | Some xs => av_of_list E cap xs m end.

Definition av_after (E : ety A) (cap : nat) (init : option (list A)) (ops : list (@avop A)) (m0 : mem A)
    (ts : list bool) (v : arrvec) (m : mem A) : Prop :=
  exists v0 m1, av_built E cap init m0 = Ok (v0, m1) /\ av_run E cap ops v0 m1 = Ok (ts, v, m).

(** size(), indexing and iteration give [xs]. *)
Definition av_reads (v : arrvec) (m : mem A) (xs : list A) : Prop :=
  av_size v = length xs /\ (forall i x, xs !! i = Some x -> av_get v i m = Ok x) /\
  av_iter v m = Ok xs.

(** Indexing and iteration of an Array of n elements give [xs]. *)
Definition arr_reads (n : nat) (b : nat) (m : mem A) (xs : list A) : Prop :=
  n = length xs /\ (forall i x, xs !! i = Some x -> arr_get b i m = Ok x) /\ arr_iter n b m = Ok xs.

(** size(), indexing and iteration of a view give [xs]. *)
Definition view_reads (v : view) (m : mem A) (xs : list A) : Prop :=
  w_size v = length xs /\ (forall i x, xs !! i = Some x -> view_get v i m = Ok x) /\
  view_iter v m = Ok xs.
End spec.

Section arrays.
Context {A : Type}.

(** An Array<A, n> built by default (all elements [inl d]) or from a list, then assigned to at
    the given indices. *)
Definition arr_init (n : nat) (init : A + list A) : list A :=
  match init with inl d => replicate n d | inr xs => xs end.
Definition arr_built (E : ety A) (n : nat) (init : A + list A) (m : mem A) : res (nat * mem A) :=
  match init with inl d => arr_new E n d m | inr xs => arr_of_list E n xs m end.
Fixpoint arr_writes (E : ety A) (b : nat) (ws : list (nat * A)) (m : mem A) : res (mem A) :=
  match ws with
  | [] => Ok m
  | (i, a) :: ws' => let* m1 := arr_set E b i a m in arr_writes E b ws' m1
  end.
Definition arr_after (E : ety A) (n : nat) (init : A + list A) (ws : list (nat * A)) (m0 : mem A)
    (b : nat) (m : mem A) : Prop :=
  exists m1, arr_built E n init m0 = Ok (b, m1) /\ arr_writes E b ws m1 = Ok m.
Definition list_writes (ws : list (nat * A)) (l : list A) : list A :=
  fold_left (fun l w => <[fst w := snd w]> l) ws l.

(** Every way to build a view of [k] elements from a data pointer. *)
Inductive view_over (data : cptr) (k : nat) : view -> Prop :=
| over_array w : arrview_new k data = Ok w -> view_over data k w
| over_arrvec cap w : avview_new cap data k = Ok w -> view_over data k w
| over_vector w : vview_new data k = Ok w -> view_over data k w
| over_conv cap w : view_over data k w -> view_over data k (avview_of_arrview cap w)
| over_vconv w : view_over data k w -> view_over data k (vview_of w).
End arrays.
