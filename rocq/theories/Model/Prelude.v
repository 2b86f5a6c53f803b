(** Model of /repo/include/efp/prelude.hpp.

    Argument sequences are const, so they are kept in their own memory, apart from the result's
    storage (which is fresh and cannot overlap them).  A pack of sequences is a list with one
    element type [A], standing for a common variant of the pack's element types.  Callbacks may
    have side effects: they read and update a world [W], and may throw, diverge or be undefined.
    When a callback throws the outcome is [Throw]; the unwinding of the result is not modelled.
    Sizes are unbounded naturals unless [sub_wrap] is used.  Results are returned in place (NRVO);
    with trivial elements a move would give the same. *)
From Verif Require Import Base.Cpp Base.Mem Model.Vector Model.Sequence.

(** ** Static types, trait.hpp:24-45 and sequence.hpp *)

(** Array/ArrayView of n, ArrVec/ArrVecView of a capacity, Vector/VectorView. *)
Inductive kind : Type := KArray (n : nat) | KArrVec (cap : nat) | KVector.

(** CtSize and CtCapacity; [None] is dyn. *)
Definition ct_size (k : kind) : option nat := match k with KArray n => Some n | _ => None end.
Definition ct_cap (k : kind) : option nat :=
  match k with KArray n => Some n | KArrVec c => Some c | KVector => None end.

(** _minimum, _sum, _product, meta.hpp:803-819.  _minimum starts from SIZE_MAX, which is
    neutral; packs are not empty. *)
Definition minimum (ns : list nat) : nat :=
  match ns with [] => 0 | n :: ns => fold_left Nat.min ns n end.
Definition total (ns : list nat) : nat := fold_left Nat.add ns 0.
Definition product (ns : list nat) : nat := fold_left Nat.mul ns 1.

(** The shape shared by NAryReturn (90-97), AppendReturn (211-218), MapWithIndexReturn
    (437-444) and CartesianMapReturn (466-473). *)
Definition result_kind (agg : list nat -> nat) (ks : list kind) : kind :=
  match mapM ct_size ks with
  | Some ns => KArray (agg ns)
  | None => match mapM ct_cap ks with Some cs => KArrVec (agg cs) | None => KVector end
  end.
Definition nary_return := result_kind minimum.
Definition append_return := result_kind total.
Definition cartesian_return := result_kind product.

(** FilterReturn (123-127), ElemIndicesReturn (945-947), FindIndicesReturn (997-999). *)
Definition filter_return (k : kind) : kind :=
  match ct_cap k with Some c => KArrVec c | None => KVector end.

(** ConcatReturn, lines 254-269: outer and inner kind. *)
Definition concat_return (ko ki : kind) : kind :=
  match ct_size ko, ct_size ki with
  | Some n, Some k => KArray (n * k)
  | _, _ =>
      match ct_cap ko, ct_cap ki with
      | Some co, Some ci =>
          match ct_size ko with
          | Some n => KArrVec (n * ci)
          | None => match ct_size ki with Some k => KArrVec (co * k) | None => KArrVec (co * ci) end
          end
      | _, _ => KVector
      end
  end.

(** IntercalateReturn, lines 303-319.  For an outer size or capacity of 0 and a non-empty
    delimiter the size_t expression wraps around and the program does not compile; here the
    difference is 0. *)
Definition intercalate_return (kd ko ki : kind) : kind :=
  match ct_size kd, ct_size ko, ct_size ki with
  | Some d, Some n, Some k => KArray (n * (k + d) - d)
  | _, _, _ =>
      match ct_cap kd, ct_cap ko, ct_cap ki with
      | Some d, Some n, Some k => KArrVec (n * (k + d) - d)
      | _, _, _ => KVector
      end
  end.

(** ** Argument sequences *)

(** What length, data and the static traits of a sequence give. *)
Record src : Type := Src { s_kind : kind; s_data : cptr; s_len : nat }.

Definition src_arr (n b : nat) : src := Src (KArray n) (CAt b 0) n.
Definition src_av (cap : nat) (v : arrvec) : src := Src (KArrVec cap) (CAt (av_blk v) 0) (av_size v).
Definition src_vec (v : vec) : res src :=
  match v_data v with
  | Null => Ok (Src KVector CNull (v_size v))
  | Indet => UB IndetPtr
  | Blk b => Ok (Src KVector (CAt b 0) (v_size v))
  end.

(** nth(i, as), sequence.hpp:211-219, 494-502, 993-1001, 1103-1111, 1236-1244. *)
Definition nth {A} (m : mem A) (s : src) (i : nat) : res A :=
  match s_data s with CNull => UB NullDeref | CAt b off => read m b (off + i) end.

(** nth(i, ass)... *)
Fixpoint nths {A} (m : mem A) (ss : list src) (i : nat) : res (list A) :=
  match ss with
  | [] => Ok []
  | s :: ss' => let* x := nth m s i in let* xs := nths m ss' i in Ok (x :: xs)
  end.

(** _min_length, lines 65-68. *)
Definition min_length (ss : list src) : nat := minimum (s_len <$> ss).

(** ** Result containers *)
Inductive cont : Type := CArr (n b : nat) | CAv (cap : nat) (v : arrvec) | CVec (v : vec).

Definition cont_kind (c : cont) : kind :=
  match c with CArr n _ => KArray n | CAv cap _ => KArrVec cap | CVec _ => KVector end.
Definition cont_size (c : cont) : nat :=
  match c with CArr n _ => n | CAv _ v => av_size v | CVec v => v_size v end.

Section cont.
Context {B : Type} (E : ety B).

(** R res {}; [d] is Element{}. *)
Definition cont_new (d : B) (k : kind) (m : mem B) : res (cont * mem B) :=
  match k with
  | KArray n => let* (b, m1) := arr_new E n d m in Ok (CArr n b, m1)
  | KArrVec cap => let (v, m1) := av_new cap m in Ok (CAv cap v, m1)
  | KVector => Ok (CVec vec_new, m)
  end.

Definition cont_resize (c : cont) (n : nat) (m : mem B) : res (cont * mem B) :=
  match c with
  | CArr _ _ => Ok (c, m)
  | CAv cap v => let* v1 := av_resize cap v n in Ok (CAv cap v1, m)
  | CVec v => let* (v1, m1) := vec_resize E v n m in Ok (CVec v1, m1)
  end.

(** R res {}; if (CtSize<R>::value == dyn) res.resize(n); *)
Definition cont_sized (d : B) (k : kind) (n : nat) (m : mem B) : res (cont * mem B) :=
  let* (r, m1) := cont_new d k m in
  match ct_size k with None => cont_resize r n m1 | Some _ => Ok (r, m1) end.

(** FilterReturn<As> res {}; for As of kind [k]. *)
Definition cont_empty (k : kind) (m : mem B) : cont * mem B :=
  match filter_return k with
  | KArrVec cap => let (v, m1) := av_new cap m in (CAv cap v, m1)
  | _ => (CVec vec_new, m)
  end.

(** nth(i, res) = x *)
Definition cont_set (c : cont) (i : nat) (x : B) (m : mem B) : res (mem B) :=
  match c with
  | CArr _ b => arr_set E b i x m
  | CAv _ v => av_set E v i x m
  | CVec v => vec_set E v i x m
  end.

Definition cont_push (c : cont) (x : B) (m : mem B) : res (cont * mem B) :=
  match c with
  | CArr _ _ => Ok (c, m)
  | CAv cap v => let* (v1, m1) := av_push E cap v x m in Ok (CAv cap v1, m1)
  | CVec v => let* (v1, m1) := vec_push E v x m in Ok (CVec v1, m1)
  end.

Definition cont_get (c : cont) (i : nat) (m : mem B) : res B :=
  match c with
  | CArr _ b => arr_get b i m
  | CAv _ v => av_get v i m
  | CVec v => vec_get v i m
  end.

Definition cont_iter (c : cont) (m : mem B) : res (list B) :=
  match c with
  | CArr n b => arr_iter n b m
  | CAv _ v => av_iter v m
  | CVec v => vec_iter v m
  end.
End cont.

Section prelude.
Context {A B W : Type}.
Implicit Types (ma : mem A) (mb : mem B) (w : W).

(** for_each, lines 71-78; for_each_with_index, 379-386. *)
Definition for_each (f : list A -> W -> res W) (ss : list src) ma w : res W :=
  for_up (min_length ss) 0 (fun i w => let* xs := nths ma ss i in f xs w) w.
Definition for_each_with_index (f : nat -> list A -> W -> res W) (ss : list src) ma w : res W :=
  for_up (min_length ss) 0 (fun i w => let* xs := nths ma ss i in f i xs w) w.

(** Assignment through the references the callback received. *)
Definition nth_set (E : ety A) ma (s : src) (i : nat) (x : A) : res (mem A) :=
  match s_data s with CNull => UB NullDeref | CAt b off => assign E ma b (off + i) x end.
Fixpoint nths_set (E : ety A) ma (ss : list src) (i : nat) (xs : list A) : res (mem A) :=
  match ss, xs with
  | s :: ss', x :: xs' => let* ma := nth_set E ma s i x in nths_set E ma ss' i xs'
  | _, _ => Ok ma
  end.

(** for_each_mut, lines 81-88, and for_each_with_index_mut, 388-395: the callback returns the
    values it leaves in the elements it was given references to.  The sequences do not overlap. *)
Definition for_each_mut (E : ety A) (f : list A -> W -> res (list A * W)) (ss : list src) ma w :
    res (mem A * W) :=
  for_up (min_length ss) 0 (fun i '(ma, w) =>
    let* xs := nths ma ss i in
    let* (ys, w) := f xs w in
    let* ma := nths_set E ma ss i ys in Ok (ma, w)) (ma, w).
Definition for_each_with_index_mut (E : ety A) (f : nat -> list A -> W -> res (list A * W))
    (ss : list src) ma w : res (mem A * W) :=
  for_up (min_length ss) 0 (fun i '(ma, w) =>
    let* xs := nths ma ss i in
    let* (ys, w) := f i xs w in
    let* ma := nths_set E ma ss i ys in Ok (ma, w)) (ma, w).

(** map, lines 105-119. *)
Definition map_ (E : ety B) (d : B) (f : list A -> W -> res (B * W)) (ss : list src) ma w mb :
    res (cont * W * mem B) :=
  let res_len := min_length ss in
  let* (r, mb) := cont_sized E d (nary_return (s_kind <$> ss)) res_len mb in
  let* (w, mb) := for_up res_len 0 (fun i '(w, mb) =>
    let* xs := nths ma ss i in
    let* (y, w) := f xs w in
    let* mb := cont_set E r i y mb in Ok (w, mb)) (w, mb) in
  Ok (r, w, mb).

(** map_with_index, lines 448-462. *)
Definition map_with_index (E : ety B) (d : B) (f : nat -> list A -> W -> res (B * W))
    (ss : list src) ma w mb : res (cont * W * mem B) :=
  let res_len := min_length ss in
  let* (r, mb) := cont_sized E d (nary_return (s_kind <$> ss)) res_len mb in
  let* (w, mb) := for_up res_len 0 (fun i '(w, mb) =>
    let* xs := nths ma ss i in
    let* (y, w) := f i xs w in
    let* mb := cont_set E r i y mb in Ok (w, mb)) (w, mb) in
  Ok (r, w, mb).

(** foldl, lines 147-157. *)
Definition foldl (f : B -> A -> W -> res (B * W)) (init : B) (s : src) ma w : res (B * W) :=
  for_up (s_len s) 0 (fun i '(r, w) => let* x := nth ma s i in f r x w) (init, w).

(** foldr, lines 160-169. *)
Definition foldr_ (f : A -> B -> W -> res (B * W)) (init : B) (s : src) ma w : res (B * W) :=
  for_down (s_len s) 0 (fun i '(r, w) => let* x := nth ma s i in f x r w) (init, w).

(** from_function, lines 191-204; the length is a run-time value or Size<n>. *)
Inductive idx : Type := Sz (n : nat) | Dy (n : nat).
Definition idx_val (i : idx) : nat := match i with Sz n => n | Dy n => n end.

Definition from_function (E : ety B) (d : B) (len : idx) (f : nat -> W -> res (B * W)) w mb :
    res (cont * W * mem B) :=
  let k := match len with Sz n => KArray n | Dy _ => KVector end in
  let* (r, mb) := cont_sized E d k (idx_val len) mb in
  let* (w, mb) := for_up (idx_val len) 0 (fun i '(w, mb) =>
    let* (y, w) := f i w in
    let* mb := cont_set E r i y mb in Ok (w, mb)) (w, mb) in
  Ok (r, w, mb).

(** cartesian_for_each, lines 398-416. *)
Fixpoint cartesian_for_each (f : list A -> W -> res W) (ss : list src) ma w : res W :=
  match ss with
  | [] => Ok w
  | [s] => for_each f [s] ma w
  | s :: ss' =>
      for_up (s_len s) 0 (fun i w =>
        let* a := nth ma s i in cartesian_for_each (fun xs => f (a :: xs)) ss' ma w) w
  end.

(** for_index, lines 371-376; cartesian_for_index, 497-508. *)
Definition for_index (f : nat -> W -> res W) (n : nat) w : res W := for_up n 0 f w.
Fixpoint cartesian_for_index (f : list nat -> W -> res W) (ns : list nat) w : res W :=
  match ns with
  | [] => Ok w
  | [n] => for_index (fun i => f [i]) n w
  | n :: ns' => for_up n 0 (fun i w => cartesian_for_index (fun is => f (i :: is)) ns' w) w
  end.
End prelude.

(** cartesian_map, lines 479-493: inner counts the visited combinations. *)
Definition cartesian_map {A B W} (E : ety B) (d : B) (f : list A -> W -> res (B * W))
    (ss : list src) (ma : mem A) (w : W) (mb : mem B) : res (cont * W * mem B) :=
  let* (r, mb) := cont_sized E d (cartesian_return (s_kind <$> ss)) (product (s_len <$> ss)) mb in
  let* (i, w, mb) := cartesian_for_each (fun xs '(i, w, mb) =>
    let* (y, w) := f xs w in
    let* mb := cont_set E r i y mb in Ok (i + 1, w, mb)) ss ma (0, w, mb) in
  Ok (r, w, mb).

Section seqs.
Context {A W : Type} (E : ety A).
Implicit Types (m mb : mem A) (w : W).

(** filter, lines 130-144. *)
Definition filter_ (f : A -> W -> res (bool * W)) (s : src) m w mb : res (cont * W * mem A) :=
  let (r, mb) := cont_empty (s_kind s) mb in
  for_up (s_len s) 0 (fun i '(r, w, mb) =>
    let* a := nth m s i in
    let* (keep, w) := f a w in
    if keep : bool then let* (r, mb) := cont_push E r a mb in Ok (r, w, mb)
    else Ok (r, w, mb)) (r, w, mb).

(** detail::append_impl, lines 221-231. *)
Definition append_impl (r : cont) (s : src) m (idx : nat) mb : res (nat * mem A) :=
  for_up (s_len s) 0 (fun i '(idx, mb) =>
    let* x := nth m s i in
    let* mb := cont_set E r idx x mb in Ok (idx + 1, mb)) (idx, mb).

(** append, lines 235-247.  The arguments of execute_pack are evaluated in an unspecified
    order: [order] lists the positions as the compiler evaluates them. *)
Definition append_ (d : A) (order : list nat) (ss : list src) m mb : res (cont * mem A) :=
  let* (r, mb) := cont_sized E d (append_return (s_kind <$> ss)) (total (s_len <$> ss)) mb in
  let* (_, mb) := for_up (length order) 0 (fun k '(idx, mb) =>
    let* p := get order k in
    let* s := get ss p in
    append_impl r s m idx mb) (0, mb) in
  Ok (r, mb).

(** A sequence of sequences: its kind, the kind of the inner ones, and the inner ones. *)
Record nsrc : Type := NSrc { ns_kind : kind; ns_inner : kind; ns_list : list src }.

(** The summation of the inner lengths, lines 279-283 and 333-337. *)
Definition inner_total (ass : nsrc) : res nat :=
  for_up (length (ns_list ass)) 0 (fun i n => let* s := get (ns_list ass) i in Ok (n + s_len s)) 0.

(** concat, lines 272-299. *)
Definition concat_ (d : A) (ass : nsrc) m mb : res (cont * mem A) :=
  let* n := inner_total ass in
  let* (r, mb) := cont_sized E d (concat_return (ns_kind ass) (ns_inner ass)) n mb in
  let* (_, mb) := for_up (length (ns_list ass)) 0 (fun i '(idx, mb) =>
    let* s := get (ns_list ass) i in append_impl r s m idx mb) (0, mb) in
  Ok (r, mb).

(** intercalate, lines 322-368. *)
Definition intercalate_ (d : A) (del : src) (ass : nsrc) m mb : res (cont * mem A) :=
  let k := intercalate_return (s_kind del) (ns_kind ass) (ns_inner ass) in
  let* (r, mb) := cont_new E d k mb in
  let n := length (ns_list ass) in
  if decide (n = 0) then Ok (r, mb)
  else
    let* tot := inner_total ass in
    let* (r, mb) := (match ct_size k with
                     | None => cont_resize E r (tot + (n - 1) * s_len del) mb
                     | Some _ => Ok (r, mb) end) in
    let* (idx, mb) := for_up (n - 1) 0 (fun i '(idx, mb) =>
      let* s := get (ns_list ass) i in
      let* (idx, mb) := append_impl r s m idx mb in
      append_impl r del m idx mb) (0, mb) in
    let* s := get (ns_list ass) (n - 1) in
    let* (_, mb) := append_impl r s m idx mb in
    Ok (r, mb).

(** ** Views *)

(** Pointer arithmetic; whether the result stays inside the block is checked when it is used. *)
Definition ptr_add (p : cptr) (k : nat) : res cptr :=
  match p with
  | CNull => if decide (k = 0) then Ok CNull else UB NullDeref
  | CAt b off => Ok (CAt b (off + k))
  end.

(** The view constructors, by kind of view. *)
Definition view_new (k : kind) (data : cptr) (len : nat) : res src :=
  let* v := (match k with
             | KArray n => arrview_new n data
             | KArrVec cap => avview_new cap data len
             | KVector => vview_new data len end) in
  Ok (Src k (w_data v) (w_size v)).

(** size_t subtraction. *)
Definition sub_wrap (a b : nat) : nat := Z.to_nat (wrap (Z.of_nat a - Z.of_nat b)).

(** head, lines 514-521; last, 608-615; is_null, 619-622. *)
Definition head_ (s : src) m : res A := if decide (s_len s = 0) then Throw else nth m s 0.
Definition last_ (s : src) m : res A := if decide (s_len s = 0) then Throw else nth m s (s_len s - 1).
Definition is_null (s : src) : bool := bool_decide (s_len s = 0).

(** TailReturn, lines 525-540, and InitReturn, 565-580. *)
Definition tail_return (k : kind) : kind :=
  match k with KArray n => KArray (n - 1) | KArrVec c => KArrVec (c - 1) | KVector => KVector end.
(** tail, lines 545-561; init, 586-602. *)
Definition tail_ (s : src) : res src :=
  if decide (s_len s = 0) then Throw
  else let* p := ptr_add (s_data s) 1 in view_new (tail_return (s_kind s)) p (s_len s - 1).
Definition init_ (s : src) : res src :=
  if decide (s_len s = 0) then Throw
  else view_new (tail_return (s_kind s)) (s_data s) (s_len s - 1).

(** A view of the same capacity class: the run-time-index results of 629-637, 668-677, 724-733, 773-782. *)
Definition loose (k : kind) : kind := match ct_cap k with Some c => KArrVec c | None => KVector end.

(** TakeReturnImpl, lines 667-696. *)
Definition take_return (i : idx) (k : kind) : kind :=
  match i with
  | Dy _ => loose k
  | Sz n => match k with
            | KArray c => KArray (Nat.min n c)
            | KArrVec c => KArrVec (Nat.min n c)
            | KVector => KArrVec n
            end
  end.
(** take, lines 705-719. *)
Definition take_ (i : idx) (s : src) : res src :=
  view_new (take_return i (s_kind s)) (s_data s) (Nat.min (idx_val i) (s_len s)).

(** DropReturnImpl, lines 772-804. *)
Definition drop_return (i : idx) (k : kind) : kind :=
  match i with
  | Dy _ => loose k
  | Sz n => match k with
            | KArray c => KArray (if decide (n < c) then c - n else 0)
            | KArrVec c => KArrVec (if decide (n < c) then c - n else 0)
            | KVector => KVector
            end
  end.
(** drop, lines 813-829. *)
Definition drop_ (i : idx) (s : src) : res src :=
  let n := if decide (s_len s < idx_val i) then s_len s else idx_val i in
  let* p := ptr_add (s_data s) n in view_new (drop_return i (s_kind s)) p (s_len s - n).

(** TakeUnsafeReturnImpl, lines 627-644; take_unsafe, 655-663. *)
Definition take_unsafe_return (i : idx) (k : kind) : kind :=
  match i with Dy _ => loose k | Sz n => KArray n end.
Definition take_unsafe (i : idx) (s : src) : res src :=
  view_new (take_unsafe_return i (s_kind s)) (s_data s) (idx_val i).

(** DropUnsafeReturnImpl, lines 723-751; drop_unsafe, 760-768. *)
Definition drop_unsafe_return (i : idx) (k : kind) : kind :=
  match i with
  | Dy _ => loose k
  | Sz n => match k with
            | KArray c => KArray (sub_wrap c n)
            | KArrVec c => KArrVec (sub_wrap c n)
            | KVector => KVector
            end
  end.
Definition drop_unsafe (i : idx) (s : src) : res src :=
  let* p := ptr_add (s_data s) (idx_val i) in
  view_new (drop_unsafe_return i (s_kind s)) p (sub_wrap (s_len s) (idx_val i)).

(** decltype(declval<E>() - declval<S>()): a Size exactly if both are (meta.hpp:40-43). *)
Definition idx_sub (e s : idx) : idx :=
  match e, s with
  | Sz a, Sz b => Sz (sub_wrap a b)
  | _, _ => Dy (sub_wrap (idx_val e) (idx_val s))
  end.

(** slice_unsafe, lines 833-850; slice, 854-871. *)
Definition slice_unsafe (start stop : idx) (s : src) : res src :=
  let n := idx_sub stop start in
  let* p := ptr_add (s_data s) (idx_val start) in
  view_new (take_unsafe_return n (drop_unsafe_return start (s_kind s))) p (idx_val n).
Definition slice_ (start stop : idx) (s : src) : res src :=
  let n := idx_sub stop start in
  let* p := ptr_add (s_data s) (idx_val start) in
  view_new (take_return n (drop_return start (s_kind s))) p (idx_val n).

(** The scanning loop of take_while and drop_while, lines 883-888 and 903-908. *)
Definition scan (f : A -> W -> res (bool * W)) (s : src) m w : res (nat * W) :=
  loop (S (s_len s)) (fun '(i, w) =>
    if decide (i < s_len s) then
      let* x := nth m s i in
      let* (go, w) := f x w in
      if go : bool then Ok (inl (i + 1, w)) else Ok (inr (i, w))
    else Ok (inr (i, w))) (0, w).

(** take_while, lines 875-891; drop_while, 895-911.  The result type drops a const the inner
    take/drop adds, so they compile for views of const elements. *)
Definition take_while_ (f : A -> W -> res (bool * W)) (s : src) m w : res (src * W) :=
  let* (i, w) := scan f s m w in let* v := take_ (Dy i) s in Ok (v, w).
Definition drop_while_ (f : A -> W -> res (bool * W)) (s : src) m w : res (src * W) :=
  let* (i, w) := scan f s m w in let* v := drop_ (Dy i) s in Ok (v, w).

(** The search loops of elem (915-926), elem_index (930-941), find (967-978) and find_index
    (982-993): the first index at which [f] holds. *)
Definition first_index (f : A -> W -> res (bool * W)) (s : src) m w : res (option nat * W) :=
  loop (S (s_len s)) (fun '(i, w) =>
    if decide (i < s_len s) then
      let* x := nth m s i in
      let* (hit, w) := f x w in
      if hit : bool then Ok (inr (Some i, w)) else Ok (inl (i + 1, w))
    else Ok (inr (None, w))) (0, w).

Definition find_index_ (f : A -> W -> res (bool * W)) (s : src) m w : res (option nat * W) :=
  first_index f s m w.
Definition find_ (f : A -> W -> res (bool * W)) (s : src) m w : res (bool * W) :=
  let* (o, w) := first_index f s m w in Ok (match o with Some _ => true | None => false end, w).
(** [eqb] is the element type's ==, called as nth(i, as) == a. *)
Definition elem_index_ (eqb : A -> A -> W -> res (bool * W)) (a : A) (s : src) m w : res (option nat * W) :=
  first_index (fun x => eqb x a) s m w.
Definition elem_ (eqb : A -> A -> W -> res (bool * W)) (a : A) (s : src) m w : res (bool * W) :=
  let* (o, w) := first_index (fun x => eqb x a) s m w in
  Ok (match o with Some _ => true | None => false end, w).

(** find_indices, lines 1003-1015; elem_indices, 951-963 (called as a == nth(i, as)).
    size_t is a trivial type. *)
Definition nat_ety : ety nat := Ety true (fun x => x).
Definition find_indices_ (f : A -> W -> res (bool * W)) (s : src) m w (mi : mem nat) :
    res (cont * W * mem nat) :=
  let (r, mi) := cont_empty (s_kind s) mi in
  for_up (s_len s) 0 (fun i '(r, w, mi) =>
    let* x := nth m s i in
    let* (hit, w) := f x w in
    if hit : bool then let* (r, mi) := cont_push nat_ety r i mi in Ok (r, w, mi)
    else Ok (r, w, mi)) (r, w, mi).
Definition elem_indices_ (eqb : A -> A -> W -> res (bool * W)) (a : A) (s : src) m w (mi : mem nat) :
    res (cont * W * mem nat) := find_indices_ (eqb a) s m w mi.
End seqs.

(** ** compose, lines 24-61 *)
Section compose.
Context {X W : Type}.

(** A function object; it lives in a memory and is referred to by its address.  Argument and
    result types are one type [X], standing for a common variant. *)
Definition fn : Type := X -> W -> res (X * W).
Record fref : Type := FRef { f_blk : nat; f_off : nat }.

(** Composed<F, Fs...>: references to the functions, lines 27-50. *)
Definition compose (fs : list fref) : list fref := fs.

(** operator(): f(fs(args...)), lines 34-36 and 47-49. *)
Fixpoint composed_call (c : list fref) (mf : mem fn) (x : X) (w : W) : res (X * W) :=
  match c with
  | [] => Ok (x, w)
  | [r] => let* f := read mf (f_blk r) (f_off r) in f x w
  | r :: c' =>
      let* (y, w) := composed_call c' mf x w in
      let* f := read mf (f_blk r) (f_off r) in f y w
  end.
End compose.
