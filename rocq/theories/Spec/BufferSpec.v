(** What a program that uses memory buffers sees: lists of chars. Only the actions and writes are those of the model. *)
From stdpp Require Import prelude.
From Coq Require Import ZArith List.
From Verif Require Import Base.Mem Model.FmtBuffer.
Local Open Scope Z_scope.

(** The text of a write, and of some. *)
Definition write_text (w : write) : list Z := match w with Push c => [c] | Append cs | Direct cs => cs | Reserve _ => [] end.
Definition writes_text (ws : list write) : list Z := concat (map write_text ws).

(** The buffers are numbered as they come; [None] is one whose lifetime ended. A buffer that is moved from keeps its text or
    is empty. *)
Inductive does (ss : list (option (list Z))) : action -> list (option (list Z)) -> Prop :=
| does_new : does ss NewBuffer (ss ++ [Some []])
| does_write i ws s : ss !! i = Some (Some s) -> does ss (WriteTo i ws) (<[i := Some (s ++ writes_text ws)]> ss)
| does_clear i s : ss !! i = Some (Some s) -> does ss (ClearIt i) (<[i := Some []]> ss)
| does_shrink i n s : ss !! i = Some (Some s) ->
    does ss (Shrink i n) (<[i := Some (if decide (0 <= n) then take (Z.to_nat n) s else s)]> ss)
| does_move_new i s rest : ss !! i = Some (Some s) -> rest = s \/ rest = [] -> does ss (MoveNew i) (<[i := Some rest]> ss ++ [Some s])
| does_move_to i j s t rest : i <> j -> ss !! i = Some (Some t) -> ss !! j = Some (Some s) -> rest = s \/ rest = [] ->
    does ss (MoveTo i j) (<[j := Some rest]> (<[i := Some s]> ss))
| does_destroy i s : ss !! i = Some (Some s) -> does ss (Destroy i) (<[i := None]> ss).
Inductive does_all : list (option (list Z)) -> list action -> list (option (list Z)) -> Prop :=
| does_none ss : does_all ss [] ss
| does_some ss a ss' l ss'' : does ss a ss' -> does_all ss' l ss'' -> does_all ss (a :: l) ss''.

(** Whether the actions name buffers in their lifetime, and none is moved to itself: [alive] says which there are. *)
Definition next_alive (alive : list bool) (a : action) : list bool :=
  match a with NewBuffer | MoveNew _ => alive ++ [true] | Destroy i => <[i := false]> alive | _ => alive end.
Definition names_alive (alive : list bool) (a : action) : Prop :=
  match a with
  | NewBuffer => True
  | WriteTo i _ | ClearIt i | Shrink i _ | MoveNew i | Destroy i => alive !! i = Some true
  | MoveTo i j => i <> j /\ alive !! i = Some true /\ alive !! j = Some true
  end.
Fixpoint well_used (alive : list bool) (l : list action) : Prop :=
  match l with [] => True | a :: l => names_alive alive a /\ well_used (next_alive alive a) l end.

(** [cs'] is [cs] with [t] written from cell [i] on. *)
Definition written_at (i : nat) (t : list Z) (cs cs' : list (cell Z)) : Prop :=
  length cs' = length cs /\
  forall k, cs' !! k = if decide (i <= k < i + length t)%nat then Live <$> t !! (k - i)%nat else cs !! k.
(** From [m] to [m']: the blocks that [P] does not name are as before, and whatever was allocated in between is released. *)
Definition as_before (P : nat -> Prop) (m m' : mem Z) : Prop :=
  leaks m' = leaks m /\
  forall c, ~ P c -> blocks m' !! c = blocks m !! c \/ blocks m !! c = None /\ blocks m' !! c = Some None.

(** The room that a write asks for, and a text whose writes all find it in [N] chars. *)
Definition asks (w : write) : nat := match w with Reserve n => n | _ => length (write_text w) end.
Definition fit (N : nat) (ws : list write) : Prop :=
  forall before w after, ws = before ++ w :: after -> (length (writes_text before) + asks w <= N)%nat.
