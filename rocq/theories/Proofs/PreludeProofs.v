(** Proofs about the model of prelude.hpp: callbacks, results, folds. *)
From Verif Require Import Base.Cpp Base.Mem Model.Vector Model.Sequence Model.Prelude
  Spec.VectorSpec Spec.SequenceSpec Spec.PreludeSpec
  Proofs.SortLemmas Proofs.MemLemmas Proofs.VectorProofs Proofs.SequenceProofs.
Set Default Proof Using "Type".

(** ** Outcomes *)
Section outcome.
Context {X Y X' Y' : Type}.

Lemma so_ok (R : X -> Y -> Prop) x y : R x y -> same_outcome R (Ok x) (Ok y).
Proof. done. Qed.

Lemma so_bind (R : X -> Y -> Prop) (S : X' -> Y' -> Prop) r1 r2 k1 k2 :
  same_outcome R r1 r2 -> (forall x y, R x y -> same_outcome S (k1 x) (k2 y)) ->
  same_outcome S (bind r1 k1) (bind r2 k2).
Proof. intros H Hk. destruct r1, r2; simpl in *; try done. by apply Hk. Qed.

Lemma so_mono (R S : X -> Y -> Prop) r1 r2 : same_outcome R r1 r2 ->
  (forall x y, R x y -> S x y) -> same_outcome S r1 r2.
Proof. intros H HRS. destruct r1, r2; simpl in *; try done. by apply HRS. Qed.

Lemma so_inv_ok (R : X -> Y -> Prop) x r : same_outcome R (Ok x) r -> exists y, r = Ok y /\ R x y.
Proof. destruct r; simpl; try done. eauto. Qed.
End outcome.

Lemma so_eq {X} (r1 r2 : res X) : same_outcome eq r1 r2 <-> r1 = r2.
Proof.
  destruct r1, r2; simpl; split; try done; try congruence.
Qed.

Lemma so_refl {X} (r : res X) : same_outcome eq r r.
Proof. by destruct r. Qed.

(** The same call on both sides. *)
Lemma so_same {X X' Y'} (r : res X) (S : X' -> Y' -> Prop) k1 k2 :
  (forall x, same_outcome S (k1 x) (k2 x)) -> same_outcome S (bind r k1) (bind r k2).
Proof. intros H. apply (so_bind eq); [apply so_refl|]. by intros x ? <-. Qed.

Lemma bind_assoc {X Y Z} (r : res X) (f : X -> res Y) (g : Y -> res Z) :
  bind (bind r f) g = bind r (fun x => bind (f x) g).
Proof. by destruct r. Qed.

Lemma bind_ext {X Y} (r : res X) (f g : X -> res Y) : (forall x, f x = g x) -> bind r f = bind r g.
Proof. intros H. by destruct r; simpl. Qed.

Lemma bind_ok_r {X} (r : res X) : bind r Ok = r.
Proof. by destruct r. Qed.

(** A counting loop against a loop over a list. *)
Lemma so_for {X S T} (R : nat -> T -> S -> Prop) (step : X -> T -> res T) (body : nat -> S -> res S)
    (xs : list X) : forall i t s, R i t s ->
  (forall j x t s, xs !! j = Some x -> R (i + j) t s ->
     same_outcome (R (Datatypes.S (i + j))) (step x t) (body (i + j) s)) ->
  same_outcome (R (i + length xs)) (forW step xs t) (for_up (length xs) i body s).
Proof.
  induction xs as [|x xs IH]; intros i t s H0 Hstep; simpl.
  - by rewrite Nat.add_0_r.
  - eapply so_bind.
    + specialize (Hstep 0 x t s eq_refl). rewrite Nat.add_0_r in Hstep. by apply Hstep.
    + intros t' s' HR. replace (i + Datatypes.S (length xs)) with (Datatypes.S i + length xs) by lia.
      apply IH; [done|]. intros j x' t1 s1 Hj HR1.
      replace (Datatypes.S i + j) with (i + Datatypes.S j) in * by lia. by apply Hstep.
Qed.

(** The list functions as loops. *)
Lemma mapW_forW {X Y W} (f : X -> W -> res (Y * W)) xs : forall w,
  forall acc, forW (fun x '(acc, w) => let* (y, w) := f x w in Ok (acc ++ [y], w)) xs (acc, w) =
    let* (ys, w') := mapW f xs w in Ok (acc ++ ys, w').
Proof.
  induction xs as [|x xs IH]; intros w acc; simpl; [by rewrite app_nil_r|].
  destruct (f x w) as [[y w1]| | |]; simpl; [|done..]. rewrite IH.
  destruct (mapW f xs w1) as [[ys w2]| | |]; simpl; [|done..]. by rewrite <- app_assoc.
Qed.

Lemma filterW_forW {X W} (f : X -> W -> res (bool * W)) xs : forall w acc,
  forW (fun x '(acc, w) => let* (b, w) := f x w in Ok (if b : bool then acc ++ [x] else acc, w)) xs (acc, w) =
    let* (ys, w') := filterW f xs w in Ok (acc ++ ys, w').
Proof.
  induction xs as [|x xs IH]; intros w acc; simpl; [by rewrite app_nil_r|].
  destruct (f x w) as [[b w1]| | |]; simpl; [|done..]. rewrite IH.
  destruct (filterW f xs w1) as [[ys w2]| | |]; simpl; [|done..].
  destruct b; [|done]. by rewrite <- app_assoc.
Qed.

Lemma mapW_length {X Y W} (f : X -> W -> res (Y * W)) xs : forall w ys w',
  mapW f xs w = Ok (ys, w') -> length ys = length xs.
Proof.
  induction xs as [|x xs IH]; intros w ys w' H; simpl in H; [by injection H as <- _|].
  destruct (f x w) as [[y w1]| | |]; simpl in H; try done.
  destruct (mapW f xs w1) as [[ys1 w2]| | |] eqn:E; simpl in H; try done.
  injection H as <- _. simpl. f_equal. by eapply IH.
Qed.

Lemma forW_app {X W} (f : X -> W -> res W) xs ys w :
  forW f (xs ++ ys) w = let* w1 := forW f xs w in forW f ys w1.
Proof.
  revert w. induction xs as [|x xs IH]; intros w; simpl; [done|].
  rewrite bind_assoc. apply bind_ext. intros w1. apply IH.
Qed.

Lemma forW_fmap {X Z W} (g : Z -> X) (f : X -> W -> res W) xs w :
  forW f (g <$> xs) w = forW (fun z => f (g z)) xs w.
Proof. revert w. induction xs as [|x xs IH]; intros w; simpl; [done|]. apply bind_ext. apply IH. Qed.

Lemma forW_ext {X W} (f g : X -> W -> res W) xs w : (forall x w, f x w = g x w) -> forW f xs w = forW g xs w.
Proof.
  intros H. revert w. induction xs as [|x xs IH]; intros w; simpl; [done|]. rewrite H. by apply bind_ext.
Qed.

(** ** Reading the arguments *)
Lemma holds_nth {A} (m : mem A) s xs i x : holds m s xs -> xs !! i = Some x -> nth m s i = Ok x.
Proof. intros (_ & _ & H). apply H. Qed.

Lemma nths_row {A} (m : mem A) ss xss i r : Forall2 (holds m) ss xss ->
  Forall2 (fun l x => l !! i = Some x) xss r -> nths m ss i = Ok r.
Proof.
  intros H. revert r. induction H as [|s xs ss xss Hs _ IH]; intros r Hr.
  - inversion Hr; subst. done.
  - inversion Hr as [|? x ? r' Hx Hr']; subst. simpl.
    rewrite (holds_nth _ _ _ _ _ Hs Hx). simpl. by rewrite (IH r' Hr').
Qed.

Lemma holds_lens {A} (m : mem A) ss xss : Forall2 (holds m) ss xss -> s_len <$> ss = length <$> xss.
Proof. induction 1 as [|s xs ss xss (Hl & _) _ IH]; [done|]. rewrite !fmap_cons. by rewrite IH, Hl. Qed.

Lemma fold_min_le ns n : fold_left Nat.min ns n <= n /\ Forall (fun k => fold_left Nat.min ns n <= k) ns.
Proof.
  revert n. induction ns as [|a ns IH]; intros n; simpl; [split; [lia|constructor]|].
  destruct (IH (Nat.min n a)) as [H1 H2]. split; [lia|]. constructor; [lia|done].
Qed.
Lemma fold_min_in ns n : fold_left Nat.min ns n = n \/ fold_left Nat.min ns n ∈ ns.
Proof.
  revert n. induction ns as [|a ns IH]; intros n; simpl; [by left|].
  destruct (IH (Nat.min n a)) as [H|H].
  - rewrite H. destruct (Nat.min_spec n a) as [[_ ->]|[_ ->]]; [by left|]. right. left.
  - right. by right.
Qed.

Lemma minimum_spec ns : ns <> [] -> minimum ns ∈ ns /\ Forall (fun k => minimum ns <= k) ns.
Proof.
  destruct ns as [|n ns]; [done|]. intros _. simpl.
  destruct (fold_min_le ns n) as [H1 H2]. split.
  - destruct (fold_min_in ns n) as [H|H]; [rewrite H; left|by right].
  - by constructor.
Qed.

Lemma zips_length {A} (ls rs : list (list A)) : zips ls rs -> minimum (length <$> ls) = length rs.
Proof.
  intros (Hle & (l & Hl & Hlen) & _).
  assert (Hne : length <$> ls <> []) by (destruct ls; [by apply elem_of_nil in Hl|done]).
  destruct (minimum_spec _ Hne) as [Hin Hmin].
  apply elem_of_list_fmap in Hin as (l' & Hl' & Hin'). specialize (Hle _ Hin').
  rewrite Forall_forall in Hmin. specialize (Hmin (length l)). rewrite <- Hlen.
  assert (length l ∈ length <$> ls) by (by apply elem_of_list_fmap_1). specialize (Hmin H). lia.
Qed.

Lemma min_length_zips {A} (m : mem A) ss xss rs : Forall2 (holds m) ss xss -> zips xss rs ->
  min_length ss = length rs.
Proof. intros H Hz. unfold min_length. rewrite (holds_lens _ _ _ H). by apply zips_length. Qed.

Lemma zips_row {A} (ls rs : list (list A)) i r : zips ls rs -> rs !! i = Some r ->
  Forall2 (fun l x => l !! i = Some x) ls r.
Proof. intros (_ & _ & H). apply H. Qed.

(** ** Results *)
Section cont.
Context {B : Type} (E : ety B).
Implicit Types (m : mem B) (r : cont) (cells : list (cell B)) (xs : list B).

Definition settable (c : cell B) : Prop := triv E = true \/ c <> Raw.

(** All [cells] of the result may be assigned to. *)
Definition open_rep r m cells : Prop := exists b rest, cont_blk r = Some b /\
  cont_size r = length cells /\ blk m b (cells ++ rest) /\ Forall settable cells.

Definition aside m0 m r : Prop :=
  leaks m = leaks m0 /\ (forall b cs, blk m0 b cs -> blk m b cs /\ cont_blk r <> Some b) /\
  allocations m = allocations m0 + (match cont_blk r with Some _ => 1 | None => 0 end).

Lemma aside_upd m0 m r b cs cs' : aside m0 m r -> cont_blk r = Some b -> blk m b cs ->
  aside m0 (upd m b cs') r.
Proof.
  intros (Hl & Ho & Ha) Hr Hb. split; [done|]. split.
  - intros b' cs'' Hb'. destruct (Ho _ _ Hb') as [H1 H2]. split; [|done].
    apply blk_upd_ne; [|done]. congruence.
  - by rewrite (allocations_upd m b cs).
Qed.

Lemma cont_set_blk r b i x m : cont_blk r = Some b -> cont_set E r i x m = assign E m b i x.
Proof.
  destruct r as [n b0|cap v|v]; simpl; [by intros [= <-]|by intros [= <-]|].
  unfold vec_set, passign. destruct (v_data v); simpl; try done. by intros [= ->].
Qed.

Lemma cont_get_blk r b i m : cont_blk r = Some b -> cont_get r i m = read m b i.
Proof.
  destruct r as [n b0|cap v|v]; simpl; [by intros [= <-]|by intros [= <-]|].
  unfold vec_get, pread. destruct (v_data v); simpl; try done. by intros [= ->].
Qed.

Lemma open_set r m m0 cells i x : open_rep r m cells -> aside m0 m r -> i < length cells ->
  exists m', cont_set E r i x m = Ok m' /\ open_rep r m' (<[i := Live x]> cells) /\ aside m0 m' r.
Proof.
  intros (b & rest & Hr & Hs & Hb & Hok) Ha Hi. rewrite (cont_set_blk _ b) by done.
  assert (Hl : (cells ++ rest) !! i = cells !! i) by (by apply lookup_app_l).
  destruct (lookup_lt_is_Some_2 cells i Hi) as [c Hc].
  assert (Heq : assign E m b i x = Ok (upd m b (<[i := Live x]> (cells ++ rest)))).
  { pose proof (Forall_lookup_1 _ _ _ _ Hok Hc) as [Ht|Hne].
    - apply (assign_triv E m b _ i x c Ht Hb). congruence.
    - destruct c as [|a]; [done|]. apply (assign_live E m b _ i x a Hb). congruence. }
  rewrite Heq. eexists. split; [done|]. rewrite insert_app_l by done.
  split; [|by eapply aside_upd].
  exists b, rest. split; [done|]. split; [by rewrite insert_length|].
  split; [by eapply blk_upd|]. apply Forall_insert; [done|]. right. done.
Qed.

Lemma open_reads r m xs : open_rep r m (Live <$> xs) -> cont_reads r m xs.
Proof.
  intros (b & rest & Hr & Hs & Hb & _). rewrite fmap_length in Hs.
  assert (Hg : forall i x, xs !! i = Some x -> read m b i = Ok x).
  { intros i x Hx. eapply read_ok; [done|]. by apply lookup_live_app. }
  split; [done|]. split.
  - intros i x Hx. rewrite (cont_get_blk _ b) by done. by apply Hg.
  - destruct r as [n b0|cap v|v]; simpl in *.
    + injection Hr as ->. unfold arr_iter. by apply iter_ok.
    + injection Hr as <-. unfold av_iter. by apply iter_ok.
    + unfold vec_iter. apply iter_ok; [done|]. intros i x Hx. unfold pread.
      destruct (v_data v); try done. injection Hr as ->. simpl. by apply Hg.
Qed.

Lemma cont_sized_ok d k n m : can_hold k n -> assignable E k -> exists r m' cells,
  cont_sized E d k n m = Ok (r, m') /\ open_rep r m' cells /\ length cells = n /\ cont_kind r = k /\
  aside m m' r.
Proof.
  intros Hf Ha. unfold cont_sized, cont_new. destruct k as [c|cap|]; cbn [can_hold ct_size] in *.
  - subst n. destruct (arr_new_rep E c d m) as (b & m' & -> & [Hb Hlen] & (Hl & Ho & Hal)). simpl.
    exists (CArr c b), m', (Live <$> replicate c d). split; [done|]. split.
    { exists b, []. simpl. rewrite app_nil_r, fmap_length, replicate_length. split_and!; try done.
      apply Forall_fmap, Forall_replicate. right. done. }
    rewrite fmap_length, replicate_length. split_and!; try done.
    split; [done|]. split; [|simpl; lia]. intros b' cs Hb'. destruct (Ho _ _ Hb') as [? ?].
    split; [done|]. simpl. congruence.
  - destruct Ha as [Ht|[? ?]]; [|done].
    destruct (av_new_rep E cap m) as (v & m' & -> & (rest & Hs & Hb & Hv & Hc) & (Hl & Ho & Hal)).
    simpl in *. unfold av_resize. rewrite decide_False by lia. simpl.
    exists (CAv cap (AV (av_blk v) n)), m', (take n rest). split; [done|]. split.
    { exists (av_blk v), (drop n rest). simpl. rewrite take_drop, take_length. split_and!; try done; [lia|].
      apply Forall_forall. intros c _. by left. }
    rewrite take_length. split_and!; try done; [lia|].
    split; [done|]. split; [|simpl; lia]. intros b' cs Hb'. destruct (Ho _ _ Hb') as [? ?].
    split; [done|]. simpl. congruence.
  - destruct Ha as [Ht|[? ?]]; [|done].
    unfold cont_resize, vec_resize. cbn [bind v_cap vec_new]. rewrite decide_True by lia.
    destruct (vec_reserve_rep E m vec_new [] (n + 1) (vec_rep_new E m)) as
      (v & m' & -> & [Hs [(Hd & _ & Hc)|(b & rest & Hd & Hb & Hv & Hc & _)]] & Hfr & Hcap & _); simpl in *.
    { lia. }
    exists (CVec (Vec (v_data v) n (v_cap v))), m', (take n rest). split; [done|]. split.
    { exists b, (drop n rest). simpl. rewrite Hd, take_drop, take_length. split_and!; try done; [lia|].
      apply Forall_forall. intros c _. by left. }
    rewrite take_length. split_and!; try done; [lia|].
    destruct Hfr as (Hl & Ho & _ & _ & Hal). unfold held in Hal. simpl in Hal. rewrite Hd in Hal.
    split; [done|]. simpl. rewrite Hd. split; [|lia]. intros b' cs Hb'.
    destruct (Ho b' cs) as [H1 H2]; [done|done|]. split; [done|]. congruence.
Qed.

(** Filling position by position. *)
Lemma open_push r m m0 cells i ys y : open_rep r m cells -> aside m0 m r ->
  take i cells = Live <$> ys -> i < length cells -> exists m' cells',
  cont_set E r i y m = Ok m' /\ open_rep r m' cells' /\ aside m0 m' r /\
  take (S i) cells' = Live <$> (ys ++ [y]) /\ length cells' = length cells.
Proof.
  intros Ho Ha Ht Hi. destruct (open_set r m m0 cells i y Ho Ha Hi) as (m' & -> & Ho' & Ha').
  exists m', (<[i := Live y]> cells). split_and!; try done.
  - rewrite (take_S_r _ i (Live y)) by (by apply list_lookup_insert).
    rewrite take_insert by lia. by rewrite Ht, fmap_app.
  - by rewrite insert_length.
Qed.

Lemma open_yields m0 r m cells xs k : open_rep r m cells -> aside m0 m r -> cells = Live <$> xs ->
  cont_kind r = k -> can_hold k (length xs) -> yields m0 k xs r m.
Proof.
  intros Ho (Hl & Hb & Ha) -> Hk Hf. split; [done|]. split; [by apply open_reads|]. done.
Qed.
End cont.

(** ** Result kinds *)
Lemma result_kind_holds {A} (m : mem A) agg ss xss : 
  (forall ns cs, Forall2 le ns cs -> agg ns <= agg cs) -> Forall2 (holds m) ss xss ->
  can_hold (result_kind agg (s_kind <$> ss)) (agg (length <$> xss)).
Proof.
  intros Hmono H. unfold result_kind. destruct (mapM ct_size (s_kind <$> ss)) as [ns|] eqn:E1; simpl.
  - f_equal. apply mapM_Some in E1. revert ns E1.
    induction H as [|s xs ss xss (Hl & Hf & _) _ IH]; intros ns E1.
    + by inversion E1.
    + rewrite fmap_cons in E1. inversion E1 as [|? n ? ns' Hn Hns]; subst. rewrite fmap_cons.
      rewrite (IH ns' Hns). f_equal. destruct (s_kind s); simpl in *; try done. congruence.
  - destruct (mapM ct_cap (s_kind <$> ss)) as [cs|] eqn:E2; simpl; [|done].
    apply Hmono. apply mapM_Some in E2. clear E1 Hmono. revert cs E2.
    induction H as [|s xs ss xss (Hl & Hf & _) _ IH]; intros cs E2.
    + inversion E2. constructor.
    + rewrite fmap_cons in E2. inversion E2 as [|? c ? cs' Hc Hcs]; subst. rewrite fmap_cons.
      constructor; [|by apply IH]. destruct (s_kind s); simpl in *; try done; injection Hc as <-; lia.
Qed.

Lemma fold_mono (op : nat -> nat -> nat) ns cs : 
  (forall a b c d, a <= b -> c <= d -> op a c <= op b d) -> Forall2 le ns cs ->
  forall a b, a <= b -> fold_left op ns a <= fold_left op cs b.
Proof. intros Hop H. induction H as [|n c ns cs Hnc _ IH]; intros a b Hab; simpl; auto. Qed.

Lemma minimum_mono ns cs : Forall2 le ns cs -> minimum ns <= minimum cs.
Proof.
  intros H. destruct H as [|n c ns cs Hnc H]; simpl; [lia|]. apply fold_mono; [lia|done|done].
Qed.
Lemma total_mono ns cs : Forall2 le ns cs -> total ns <= total cs.
Proof. intros H. apply fold_mono; [lia|done|lia]. Qed.
Lemma product_mono ns cs : Forall2 le ns cs -> product ns <= product cs.
Proof. intros H. apply fold_mono; [intros; by apply Nat.mul_le_mono|done|lia]. Qed.

Lemma total_acc ns : forall a, fold_left Nat.add ns a = a + total ns.
Proof.
  unfold total. induction ns as [|n ns IH]; intros a; simpl; [lia|]. rewrite (IH (a + n)), (IH n). lia.
Qed.
Lemma total_cons n ns : total (n :: ns) = n + total ns.
Proof. unfold total at 1. simpl. apply total_acc. Qed.
Lemma product_acc ns : forall a, fold_left Nat.mul ns a = a * product ns.
Proof.
  unfold product. induction ns as [|n ns IH]; intros a; simpl; [lia|].
  rewrite (IH (a * n)), (IH (n + 0)). lia.
Qed.
Lemma product_cons n ns : product (n :: ns) = n * product ns.
Proof. unfold product at 1. simpl. rewrite product_acc. lia. Qed.

Lemma indexed_lookup {X} (xs : list X) : forall n j i x,
  indexed n xs !! j = Some (i, x) <-> i = n + j /\ xs !! j = Some x.
Proof.
  induction xs as [|y xs IH]; intros n [|j] i x; simpl; split; try done; try (by intros [_ ?]).
  - intros [= <- <-]. split; [lia|done].
  - intros [-> [= ->]]. do 2 f_equal. lia.
  - rewrite IH. intros [-> H]. split; [lia|done].
  - rewrite IH. intros [-> H]. split; [lia|done].
Qed.
Lemma indexed_length {X} (xs : list X) : forall n, length (indexed n xs) = length xs.
Proof. induction xs; intros n; simpl; auto. Qed.
Lemma mapW_indexed {X Y W} (f : X -> W -> res (Y * W)) xs : forall n w,
  mapW (fun '(_, x) => f x) (indexed n xs) w = mapW f xs w.
Proof.
  induction xs as [|x xs IH]; intros n w; simpl; [done|]. apply bind_ext. intros [y w1]. by rewrite IH.
Qed.
Lemma forW_indexed {X W} (f : X -> W -> res W) xs : forall n w,
  forW (fun '(_, x) => f x) (indexed n xs) w = forW f xs w.
Proof.
  induction xs as [|x xs IH]; intros n w; simpl; [done|]. apply bind_ext. intros w1. by rewrite IH.
Qed.

(** ** Building a result by index *)
Definition built {B W} (mb : mem B) (k : kind) : list B * W -> cont * W * mem B -> Prop :=
  fun '(ys, w) '(r, w', mb') => w = w' /\ yields mb k ys r mb'.

Lemma fill_ok {B W X} (E : ety B) d k (xs : list X) (f : X -> W -> res (B * W))
    (body : cont -> nat -> W * mem B -> res (W * mem B)) w mb :
  can_hold k (length xs) -> assignable E k ->
  (forall r j x w mb, xs !! j = Some x -> body r j (w, mb) =
     let* (y, w) := f x w in let* mb := cont_set E r j y mb in Ok (w, mb)) ->
  same_outcome (built mb k) (mapW f xs w)
    (let* (r, mb) := cont_sized E d k (length xs) mb in
     let* (w, mb) := for_up (length xs) 0 (body r) (w, mb) in Ok (r, w, mb)).
Proof.
  intros Hf Ha Hbody.
  destruct (cont_sized_ok E d k (length xs) mb Hf Ha) as (r & mb1 & cells & -> & Ho & Hlen & Hk & Has).
  cbn [bind]. rewrite <- (bind_ok_r (mapW f xs w)).
  assert (Heq : (let* p := mapW f xs w in Ok p) =
    let* p := forW (fun x '(acc, w) => let* (y, w) := f x w in Ok (acc ++ [y], w)) xs ([], w) in Ok p).
  { rewrite mapW_forW. rewrite bind_ok_r. destruct (mapW f xs w) as [[ys w1]| | |]; done. }
  change (let* p := mapW f xs w in Ok p) with (bind (mapW f xs w) Ok) in Heq. rewrite Heq.
  apply (so_bind (fun '(acc, w) '(w', mb') => w = w' /\ exists cells, open_rep E r mb' cells /\
     aside mb mb' r /\ length cells = length xs /\ length acc = length xs /\
     take (length xs) cells = Live <$> acc)).
  - apply (so_for (fun i '(acc, w) '(w', mb') => w = w' /\ exists cells, open_rep E r mb' cells /\
     aside mb mb' r /\ length cells = length xs /\ length acc = i /\ take i cells = Live <$> acc)
     (fun x '(acc, w) => let* (y, w) := f x w in Ok (acc ++ [y], w)) (body r) xs 0 ([], w) (w, mb1)).
    + split; [done|]. exists cells. by rewrite take_0.
    + intros j x [acc w1] [w2 mb2] Hx (<- & cells' & Ho' & Ha' & Hl' & Hacc & Ht). simpl in *.
      rewrite (Hbody r j x w1 mb2 Hx). apply so_same. intros [y w3].
      assert (Hj := lookup_lt_Some _ _ _ Hx).
      destruct (open_push E r mb2 mb cells' j acc y Ho' Ha' Ht) as (mb3 & cells3 & -> & Ho3 & Ha3 & Ht3 & Hl3);
        [lia|]. simpl. split; [done|]. exists cells3. split_and!; try done; [lia|].
      rewrite app_length. simpl. lia.
  - intros [ys w1] [w2 mb2] (<- & cells' & Ho' & Ha' & Hl' & Hacc & Ht). simpl. split; [done|].
    rewrite take_ge in Ht by lia. eapply open_yields; try done. by rewrite Hacc.
Qed.

(** ** map, from_function *)
Section map.
Context {A B W : Type} (E : ety B).

Lemma map_with_index_ok d (f : nat -> list A -> W -> res (B * W)) ss xss rs ma w mb :
  Forall2 (holds ma) ss xss -> zips xss rs -> assignable E (nary_return (s_kind <$> ss)) ->
  same_outcome (built mb (nary_return (s_kind <$> ss)))
    (mapW (fun '(i, r) => f i r) (indexed 0 rs) w) (map_with_index E d f ss ma w mb).
Proof.
  intros Hs Hz Ha. unfold map_with_index. rewrite (min_length_zips _ _ _ _ Hs Hz).
  rewrite <- (indexed_length rs 0). apply fill_ok; [|done|].
  - rewrite indexed_length, <- (zips_length _ _ Hz). eapply result_kind_holds; [|done].
    apply minimum_mono.
  - intros r j [i x] w1 mb1 Hj. apply indexed_lookup in Hj as [-> Hx]. simpl.
    by rewrite (nths_row _ _ _ _ _ Hs (zips_row _ _ _ _ Hz Hx)).
Qed.

Lemma map_ok d (f : list A -> W -> res (B * W)) ss xss rs ma w mb :
  Forall2 (holds ma) ss xss -> zips xss rs -> assignable E (nary_return (s_kind <$> ss)) ->
  same_outcome (built mb (nary_return (s_kind <$> ss))) (mapW f rs w) (map_ E d f ss ma w mb).
Proof.
  intros Hs Hz Ha. rewrite <- (mapW_indexed f rs 0 w).
  change (map_ E d f ss ma w mb) with (map_with_index E d (fun _ => f) ss ma w mb).
  by apply (map_with_index_ok d (fun _ => f) ss xss rs).
Qed.

(** Results of class type in containers that are resized: the first assignment is undefined. *)
Lemma cont_sized_class d k n mb : triv E = false -> ct_size k = None -> can_hold k n -> 0 < n ->
  exists r mb', cont_sized E d k n mb = Ok (r, mb') /\ forall y, cont_set E r 0 y mb' = UB DeadObject.
Proof.
  intros Ht Hk Hf Hn. unfold cont_sized, cont_new. destruct k as [c|cap|]; [done|..]; cbn [ct_size can_hold] in *.
  - destruct (alloc mb cap) as [b m1] eqn:Ea. unfold av_new. rewrite Ea. cbn [bind].
    unfold cont_resize, av_resize. rewrite decide_False by lia. cbn [bind]. eexists _, _. split; [done|].
    intros y. simpl. unfold av_set, assign. simpl.
    rewrite (with_block_blk _ _ _ _ (alloc_blk _ _ _ _ Ea)).
    rewrite lookup_replicate_2 by lia. by rewrite Ht.
  - unfold cont_resize, vec_resize. cbn [bind v_cap vec_new]. rewrite decide_True by lia.
    unfold vec_reserve. cbn [v_cap vec_new]. rewrite decide_True by lia.
    destruct (alloc mb (n + 1)) as [b m1] eqn:Ea. cbn. eexists _, _. split; [done|].
    intros y. cbn. unfold vec_set, passign, assign. simpl.
    rewrite (with_block_blk _ _ _ _ (alloc_blk _ _ _ _ Ea)).
    rewrite lookup_replicate_2 by lia. by rewrite Ht.
Qed.

Lemma map_class d (f : list A -> W -> res (B * W)) ss xss r0 rs ma w mb y w1 : triv E = false ->
  ct_size (nary_return (s_kind <$> ss)) = None ->
  Forall2 (holds ma) ss xss -> zips xss (r0 :: rs) -> f r0 w = Ok (y, w1) ->
  map_ E d f ss ma w mb = UB DeadObject.
Proof.
  intros Ht Hk Hs Hz Hf. unfold map_. rewrite (min_length_zips _ _ _ _ Hs Hz).
  destruct (cont_sized_class d (nary_return (s_kind <$> ss)) (length (r0 :: rs)) mb Ht Hk) as
    (r & mb' & -> & Hset); [|simpl; lia|].
  { rewrite <- (zips_length _ _ Hz). eapply result_kind_holds; [|done]. apply minimum_mono. }
  simpl. rewrite (nths_row _ _ _ _ _ Hs (zips_row _ _ 0 r0 Hz eq_refl)). cbn [bind].
  rewrite Hf. cbn [bind]. by rewrite Hset.
Qed.

Lemma from_function_ok d len (f : nat -> W -> res (B * W)) w mb :
  triv E = true \/ (exists n, len = Sz n) ->
  same_outcome (built mb (match len with Sz n => KArray n | Dy _ => KVector end))
    (mapW f (seq 0 (idx_val len)) w) (from_function E d len f w mb).
Proof.
  intros Ha. unfold from_function.
  pose proof (fill_ok E d (match len with Sz n => KArray n | Dy _ => KVector end)
    (seq 0 (idx_val len)) f (fun r i '(w, mb) => let* (y, w) := f i w in
      let* mb := cont_set E r i y mb in Ok (w, mb)) w mb) as HH.
  rewrite seq_length in HH. apply HH.
  - by destruct len.
  - destruct Ha as [Ht|[n ->]]; [by left|right; eauto].
  - intros r j x w1 mb1 Hx. apply lookup_seq in Hx as [-> _]. done.
Qed.

Lemma from_function_class d n (f : nat -> W -> res (B * W)) w mb y w1 : triv E = false -> 0 < n ->
  f 0 w = Ok (y, w1) -> from_function E d (Dy n) f w mb = UB DeadObject.
Proof.
  intros Ht Hn Hf. unfold from_function. cbn [idx_val].
  destruct (cont_sized_class d KVector n mb Ht eq_refl I Hn) as (r & mb' & -> & Hset). cbn [bind].
  destruct n; [lia|]. cbn [for_up]. rewrite Hf. cbn [bind]. by rewrite Hset.
Qed.
End map.

(** ** Loops without a result *)
Section loops.
Context {A B W : Type}.
Implicit Types (ma : mem A) (w : W).

Lemma for_each_with_index_ok (f : nat -> list A -> W -> res W) ss xss rs ma w :
  Forall2 (holds ma) ss xss -> zips xss rs ->
  for_each_with_index f ss ma w = forW (fun '(i, r) => f i r) (indexed 0 rs) w.
Proof.
  intros Hs Hz. symmetry. apply so_eq. unfold for_each_with_index.
  rewrite (min_length_zips _ _ _ _ Hs Hz), <- (indexed_length rs 0).
  apply (so_for (fun _ => eq)); [done|]. intros j [i r] t ? Hj <-. simpl.
  apply indexed_lookup in Hj as [-> Hx]. simpl.
  rewrite (nths_row _ _ _ _ _ Hs (zips_row _ _ _ _ Hz Hx)). apply so_refl.
Qed.

Lemma for_each_ok (f : list A -> W -> res W) ss xss rs ma w :
  Forall2 (holds ma) ss xss -> zips xss rs -> for_each f ss ma w = forW f rs w.
Proof.
  intros Hs Hz. rewrite <- (forW_indexed f rs 0 w).
  by apply (for_each_with_index_ok (fun _ => f) ss xss rs).
Qed.

Lemma foldl_ok (f : B -> A -> W -> res (B * W)) y s xs ma w : holds ma s xs ->
  foldl f y s ma w = foldlW f y xs w.
Proof.
  intros Hs. destruct (Hs) as (Hl & _). unfold foldl. rewrite Hl. clear Hl.
  assert (HH : forall k y w, (forall j x, xs !! j = Some x -> nth ma s (k + j) = Ok x) ->
    for_up (length xs) k (fun i '(r, w) => let* x := nth ma s i in f r x w) (y, w) = foldlW f y xs w).
  { clear Hs. induction xs as [|x xs IH]; intros k y1 w1 Hx; simpl; [done|].
    pose proof (Hx 0 x eq_refl) as H0. rewrite Nat.add_0_r in H0. rewrite H0. simpl.
    destruct (f y1 x w1) as [[y2 w2]| | |]; simpl; [|done..]. apply IH. intros j x' Hj.
    replace (S k + j) with (k + S j) by lia. by apply Hx. }
  apply HH. intros j x Hj. by apply (holds_nth _ _ _ _ _ Hs).
Qed.

Lemma foldr_ok (f : A -> B -> W -> res (B * W)) y s xs ma w : holds ma s xs ->
  foldr_ f y s ma w = foldrW f y xs w.
Proof.
  intros Hs. destruct (Hs) as (Hl & _). unfold foldr_. rewrite Hl.
  assert (HH : forall k y w, k <= length xs ->
    for_down k 0 (fun i '(r, w) => let* x := nth ma s i in f x r w) (y, w) = foldrW f y (take k xs) w).
  { induction k as [|k IH]; intros y1 w1 Hk; [done|].
    destruct (lookup_lt_is_Some_2 xs k) as [x Hx]; [lia|].
    rewrite (take_S_r _ _ _ Hx).
    assert (Hsnoc : forall l y w, foldrW f y (l ++ [x]) w = let* (y1, w1) := f x y w in foldrW f y1 l w1).
    { induction l as [|z l IHl]; intros y2 w2; simpl.
      - rewrite <- (bind_ok_r (f x y2 w2)) at 1. apply bind_ext. by intros [? ?].
      - rewrite IHl, bind_assoc. apply bind_ext. by intros [? ?]. }
    rewrite Hsnoc. cbn [for_down]. rewrite decide_True by lia.
    rewrite (holds_nth _ _ _ _ _ Hs Hx). cbn [bind].
    destruct (f x y1 w1) as [[y2 w2]| | |]; cbn [bind]; [|done..]. apply IH. lia. }
  rewrite HH by lia. by rewrite firstn_all.
Qed.

Lemma cartesian_for_each_ok ss xss ma : Forall2 (holds ma) ss xss -> ss <> [] -> forall (f : list A -> W -> res W) w,
  cartesian_for_each f ss ma w = forW f (combinations xss) w.
Proof.
  intros H. induction H as [|s xs ss xss Hs Hss IH]; intros Hne f w; [done|].
  destruct ss as [|s2 ss].
  - inversion Hss; subst.
    change (cartesian_for_each f [s] ma w) with (for_each f [s] ma w).
    rewrite (for_each_ok f [s] [xs] ((fun x => [x]) <$> xs) ma w); [|by constructor|].
    + done.
    + split; [|split].
      * intros l Hl. apply elem_of_list_singleton in Hl as ->. by rewrite fmap_length.
      * exists xs. rewrite fmap_length. split; [left|done].
      * intros i r Hr. rewrite list_lookup_fmap in Hr. destruct (xs !! i) as [x|] eqn:Ex; [|done].
        injection Hr as <-. by repeat constructor.
  - inversion Hss as [|? xs2 ? xss2 Hs2 Hss2]; subst.
    change (cartesian_for_each f (s :: s2 :: ss) ma w) with
      (for_up (s_len s) 0 (fun i w => let* a := nth ma s i in
         cartesian_for_each (fun xs => f (a :: xs)) (s2 :: ss) ma w) w).
    change (combinations (xs :: xs2 :: xss2)) with (xs ≫= fun x => (cons x) <$> combinations (xs2 :: xss2)).
    destruct (Hs) as (Hl & _). rewrite Hl. clear Hl.
    assert (HH : forall k w, (forall j x, xs !! j = Some x -> nth ma s (k + j) = Ok x) ->
      for_up (length xs) k (fun i w => let* a := nth ma s i in
         cartesian_for_each (fun xs => f (a :: xs)) (s2 :: ss) ma w) w =
      forW f (xs ≫= fun x => (cons x) <$> combinations (xs2 :: xss2)) w).
    { clear Hs. induction xs as [|x xs IHx]; intros k w1 Hx; [done|].
      rewrite bind_cons, forW_app. cbn [length for_up].
      pose proof (Hx 0 x eq_refl) as H0. rewrite Nat.add_0_r in H0. rewrite H0. cbn [bind].
      rewrite IH by done. rewrite forW_fmap. apply bind_ext. intros w2. apply IHx.
      intros j x' Hj. replace (S k + j) with (k + S j) by lia. by apply Hx. }
    apply HH. intros j x Hj. by apply (holds_nth _ _ _ _ _ Hs).
Qed.

Lemma cartesian_for_index_ok ns : ns <> [] -> forall (f : list nat -> W -> res W) w,
  cartesian_for_index f ns w = forW f (combinations (seq 0 <$> ns)) w.
Proof.
  assert (Hseq : forall (g : nat -> W -> res W) n k w, for_up n k g w = forW g (seq k n) w).
  { intros g n. induction n as [|n IH]; intros k w; simpl; [done|]. apply bind_ext. intros. apply IH. }
  induction ns as [|n ns IH]; intros Hne f w; [done|]. destruct ns as [|n2 ns].
  - change (cartesian_for_index f [n] w) with (for_up n 0 (fun i => f [i]) w). rewrite Hseq. simpl. by rewrite <- (forW_fmap (fun i => [i]) f).
  - change (cartesian_for_index f (n :: n2 :: ns) w) with
      (for_up n 0 (fun i w => cartesian_for_index (fun is => f (i :: is)) (n2 :: ns) w) w).
    rewrite Hseq. rewrite fmap_cons.
    change (combinations (seq 0 n :: (seq 0 <$> (n2 :: ns)))) with
      (seq 0 n ≫= fun x => (cons x) <$> combinations (seq 0 <$> (n2 :: ns))).
    revert w. generalize (seq 0 n). intros l. induction l as [|x l IHl]; intros w; [done|].
    rewrite bind_cons, forW_app. cbn [forW]. rewrite IH by done. rewrite forW_fmap. apply bind_ext. apply IHl.
Qed.
End loops.
