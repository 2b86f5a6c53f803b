(** Proofs about the model of prelude.hpp: filter, append, concat, views, searching, mutation. *)
From Verif Require Import Base.Cpp Base.Mem Model.Vector Model.Sequence Model.Prelude
  Spec.VectorSpec Spec.SequenceSpec Spec.PreludeSpec
  Proofs.SortLemmas Proofs.MemLemmas Proofs.VectorProofs Proofs.SequenceProofs Proofs.PreludeProofs.
Set Default Proof Using "Type".

(** ** cartesian_map *)
Lemma so_forW {X S T} (R : nat -> T -> S -> Prop) (f : X -> T -> res T) (g : X -> S -> res S) xs :
  forall i t s, R i t s ->
  (forall j x t s, xs !! j = Some x -> R (i + j) t s -> same_outcome (R (Datatypes.S (i + j))) (f x t) (g x s)) ->
  same_outcome (R (i + length xs)) (forW f xs t) (forW g xs s).
Proof.
  induction xs as [|x xs IH]; intros i t s H0 Hstep; simpl.
  - by rewrite Nat.add_0_r.
  - eapply so_bind.
    + specialize (Hstep 0 x t s eq_refl). rewrite Nat.add_0_r in Hstep. by apply Hstep.
    + intros t' s' HR. replace (i + Datatypes.S (length xs)) with (Datatypes.S i + length xs) by lia.
      apply IH; [done|]. intros j x' t1 s1 Hj HR1.
      replace (Datatypes.S i + j) with (i + Datatypes.S j) in * by lia. by apply Hstep.
Qed.

Lemma combinations_length {A} (ls : list (list A)) : length (combinations ls) = product (length <$> ls).
Proof.
  induction ls as [|l ls IH]; [done|]. rewrite fmap_cons, product_cons, <- IH. simpl.
  generalize (combinations ls). intros cs. induction l as [|x l IHl]; [done|].
  rewrite bind_cons, app_length, fmap_length, IHl. simpl. lia.
Qed.

Lemma cartesian_map_ok {A B W} (E : ety B) d (f : list A -> W -> res (B * W)) ss xss ma w mb :
  Forall2 (holds ma) ss xss -> ss <> [] -> assignable E (cartesian_return (s_kind <$> ss)) ->
  same_outcome (built mb (cartesian_return (s_kind <$> ss)))
    (mapW f (combinations xss) w) (cartesian_map E d f ss ma w mb).
Proof.
  intros Hs Hne Ha. unfold cartesian_map. rewrite (holds_lens _ _ _ Hs).
  set (cs := combinations xss). assert (Hcl := combinations_length xss). fold cs in Hcl.
  assert (Hf : can_hold (cartesian_return (s_kind <$> ss)) (product (length <$> xss))).
  { eapply result_kind_holds; [|done]. apply product_mono. }
  destruct (cont_sized_ok E d _ _ mb Hf Ha) as (r & mb1 & cells & -> & Ho & Hlen & Hk & Has).
  cbn [bind]. rewrite <- (bind_ok_r (mapW f cs w)).
  assert (Heq : bind (mapW f cs w) Ok =
    bind (forW (fun x '(acc, w) => let* (y, w) := f x w in Ok (acc ++ [y], w)) cs ([], w)) Ok).
  { rewrite mapW_forW. rewrite bind_ok_r. by destruct (mapW f cs w) as [[ys w1]| | |]. }
  rewrite Heq. rewrite (cartesian_for_each_ok _ _ _ Hs Hne). fold cs.
  apply (so_bind (fun '(acc, w) '(i, w', mb') => w = w' /\ exists cells, open_rep E r mb' cells /\
     aside mb mb' r /\ length cells = length cs /\ length acc = length cs /\
     take (length cs) cells = Live <$> acc)).
  - eapply so_mono; [apply (so_forW (fun i '(acc, w) '(i', w', mb') => w = w' /\ i' = i /\ exists cells, open_rep E r mb' cells /\
     aside mb mb' r /\ length cells = length cs /\ length acc = i /\ take i cells = Live <$> acc)
     (fun x '(acc, w) => let* (y, w) := f x w in Ok (acc ++ [y], w))
     (fun xs '(i, w, mb) => let* (y, w) := f xs w in
        let* mb := cont_set E r i y mb in Ok (i + 1, w, mb)) cs 0 ([], w) (0, w, mb1))|].
    + split; [done|]. split; [done|]. exists cells. rewrite take_0. split_and!; try done. lia.
    + intros j x [acc w1] [[i2 w2] mb2] Hx (<- & -> & cells' & Ho' & Ha' & Hl' & Hacc & Ht). simpl in *.
      apply so_same. intros [y w3]. assert (Hj := lookup_lt_Some _ _ _ Hx).
      destruct (open_push E r mb2 mb cells' j acc y Ho' Ha' Ht) as (mb3 & cells3 & -> & Ho3 & Ha3 & Ht3 & Hl3);
        [lia|]. simpl. split; [done|]. split; [lia|]. exists cells3. split_and!; try done; [lia|].
      rewrite app_length. simpl. lia.
    + intros [acc w1] [[i2 w2] mb2] (<- & _ & H). done.
  - intros [ys w1] [[i2 w2] mb2] (<- & cells' & Ho' & Ha' & Hl' & Hacc & Ht). simpl. split; [done|].
    rewrite take_ge in Ht by lia. eapply open_yields; try done. by rewrite Hacc, Hcl.
Qed.

(** ** Results built by push_back *)
Section push.
Context {B : Type} (E : ety B).
Implicit Types (m : mem B) (r : cont) (xs : list B).

Definition grow_rep r m xs : Prop :=
  match r with
  | CArr _ _ => False
  | CAv cap v => av_rep E cap m v xs
  | CVec v => vec_rep E m v xs
  end.

Lemma cont_empty_rep k m : exists r m', cont_empty k m = (r, m') /\ grow_rep r m' [] /\
  cont_kind r = filter_return k /\ aside m m' r.
Proof.
  unfold cont_empty. destruct (filter_return k) as [n|cap|] eqn:Ek.
  - by destruct k.
  - destruct (av_new_rep E cap m) as (v & m' & -> & Hr & (Hl & Ho & Ha)).
    eexists _, _. split; [done|]. split; [done|]. split; [done|].
    split; [done|]. split; [|simpl; lia]. intros b cs Hb. destruct (Ho _ _ Hb). split; [done|]. simpl. congruence.
  - eexists _, _. split; [done|]. split; [apply vec_rep_new|]. split; [done|].
    split; [done|]. split; [done|]. simpl. lia.
Qed.

Lemma cont_push_rep r m m0 xs x : grow_rep r m xs -> aside m0 m r ->
  can_hold (cont_kind r) (S (length xs)) -> exists r' m', cont_push E r x m = Ok (r', m') /\
    grow_rep r' m' (xs ++ [x]) /\ aside m0 m' r' /\ cont_kind r' = cont_kind r.
Proof.
  intros Hr Ha Hc. destruct r as [n b|cap v|v]; simpl in *; [done|..].
  - destruct (av_push_rep E cap m v xs x Hr) as (cs' & Eq & Hr'); [lia|].
    rewrite Eq. simpl. eexists _, _. split; [done|]. split; [done|]. split; [|done].
    destruct Hr as (rest & _ & Hb & _). by eapply (aside_upd m0 m (CAv cap v)).
  - destruct (vec_push_rep E m v xs x Hr) as (v' & m' & -> & Hr' & (Hl & Ho & _ & _ & Hal)). simpl.
    eexists _, _. split; [done|]. split; [done|]. split; [|done].
    destruct Ha as (Hl0 & Ho0 & Hal0). split; [congruence|]. split.
    + intros b cs Hb. destruct (Ho0 _ _ Hb) as [H1 H2]. simpl in H2. destruct (Ho b cs) as [H3 H4]; [|done|].
      { destruct (v_data v); try done. congruence. }
      split; [done|]. simpl. destruct (v_data v'); try done. congruence.
    + simpl in *. unfold held in Hal. destruct (v_data v), (v_data v'); simpl in *; lia.
Qed.

Lemma grow_reads r m xs : grow_rep r m xs -> cont_reads r m xs.
Proof.
  destruct r as [n b|cap v|v]; simpl; [done|..]; intros H.
  - destruct (av_rep_reads _ _ _ _ _ H) as (? & ? & ?). done.
  - destruct (vec_rep_reads _ _ _ _ H) as (? & ? & ?). done.
Qed.
End push.

Section seqs.
Context {A W : Type} (E : ety A).
Implicit Types (m mb : mem A) (w : W).

Lemma filter_ok (f : A -> W -> res (bool * W)) s xs m w mb : holds m s xs ->
  same_outcome (built mb (filter_return (s_kind s))) (filterW f xs w) (filter_ E f s m w mb).
Proof.
  intros Hs. destruct (Hs) as (Hl & Hf & _). unfold filter_.
  destruct (cont_empty_rep E (s_kind s) mb) as (r & mb1 & -> & Hr & Hk & Ha). rewrite Hl.
  rewrite <- (bind_ok_r (filterW f xs w)).
  assert (Heq : bind (filterW f xs w) Ok =
    forW (fun x '(acc, w) => let* (b, w) := f x w in Ok (if b : bool then acc ++ [x] else acc, w)) xs ([], w)).
  { rewrite filterW_forW. by destruct (filterW f xs w) as [[ys w1]| | |]. }
  rewrite Heq. eapply so_mono.
  - apply (so_for (fun i '(acc, w) '(r, w', mb') => w = w' /\ grow_rep E r mb' acc /\ aside mb mb' r /\
      cont_kind r = filter_return (s_kind s) /\ length acc <= i)
      (fun x '(acc, w) => let* (b, w) := f x w in Ok (if b : bool then acc ++ [x] else acc, w)) _ xs 0 ([], w) (r, w, mb1)).
    + split_and!; try done. 
    + intros j x [acc w1] [[r2 w2] mb2] Hx (<- & Hr2 & Ha2 & Hk2 & Hle). simpl in *.
      rewrite (holds_nth _ _ _ _ _ Hs Hx). cbn [bind]. apply so_same. intros [[|] w3]; simpl.
      * assert (Hj := lookup_lt_Some _ _ _ Hx).
        destruct (cont_push_rep E r2 mb2 mb acc x Hr2 Ha2) as (r3 & mb3 & -> & Hr3 & Ha3 & Hk3).
        { rewrite Hk2. destruct (s_kind s); simpl in *; try lia. }
        simpl. split_and!; try done; [congruence|]. rewrite app_length. simpl. lia.
      * split_and!; try done. lia.
  - intros [ys w1] [[r2 w2] mb2] (<- & Hr2 & Ha2 & Hk2 & Hle). simpl in *. split; [done|].
    split; [done|]. split; [by eapply grow_reads|]. split; [|done].
    destruct (s_kind s); simpl in *; lia.
Qed.

(** ** append_impl *)
Lemma for_up_ext {S} n i (f g : nat -> S -> res S) (s : S) : (forall k s, f k s = g k s) ->
  for_up n i f s = for_up n i g s.
Proof.
  intros H. revert i s. induction n as [|n IH]; intros i s; [done|]. simpl. rewrite H.
  destruct (g i s); try done. apply IH.
Qed.

Lemma append_impl_ok r s m xs mb0 mb cells ys : holds m s xs -> open_rep E r mb cells -> aside mb0 mb r ->
  take (length ys) cells = Live <$> ys -> length ys + length xs <= length cells ->
  exists mb' cells', append_impl E r s m (length ys) mb = Ok (length ys + length xs, mb') /\
    open_rep E r mb' cells' /\ aside mb0 mb' r /\ length cells' = length cells /\
    take (length (ys ++ xs)) cells' = Live <$> (ys ++ xs).
Proof.
  intros Hs Ho Ha Ht Hlen. unfold append_impl. destruct (Hs) as (Hl & _). rewrite Hl.
  assert (HH : wp (for_up (length xs) 0 (fun i '(idx, mb) =>
     let* x := nth m s i in let* mb := cont_set E r idx x mb in Ok (idx + 1, mb)) (length ys, mb))
     (fun '(idx, mb') => idx = length ys + length xs /\ exists cells', open_rep E r mb' cells' /\
        aside mb0 mb' r /\ length cells' = length cells /\
        take (length ys + length xs) cells' = Live <$> (ys ++ xs))).
  { apply (wp_for_up (fun i '(idx, mb') => idx = length ys + i /\ exists cells', open_rep E r mb' cells' /\
        aside mb0 mb' r /\ length cells' = length cells /\
        take (length ys + i) cells' = Live <$> (ys ++ take i xs))).
    - split; [lia|]. exists cells. rewrite Nat.add_0_r, take_0, app_nil_r. done.
    - intros k [idx mb1] _ Hk (-> & cells1 & Ho1 & Ha1 & Hl1 & Ht1).
      destruct (lookup_lt_is_Some_2 xs k) as [x Hx]; [lia|].
      rewrite (holds_nth _ _ _ _ _ Hs Hx). cbn [bind].
      destruct (open_push E r mb1 mb0 cells1 (length ys + k) (ys ++ take k xs) x Ho1 Ha1 Ht1) as
        (mb2 & cells2 & -> & Ho2 & Ha2 & Ht2 & Hl2); [lia|]. cbn [bind]. apply wp_ok.
      split; [lia|]. exists cells2. split_and!; try done; [lia|].
      rewrite (take_S_r _ _ _ Hx). rewrite Nat.add_succ_r, Ht2. by rewrite app_assoc.
    - intros [idx mb1] (-> & cells1 & Ho1 & Ha1 & Hl1 & Ht1). split; [done|]. exists cells1.
      simpl in Ht1. rewrite (take_ge xs) in Ht1 by done. done. }
  destruct HH as ([idx mb'] & Eq & -> & cells' & H1 & H2 & H3 & H4). exists mb', cells'.
  rewrite app_length. done.
Qed.

(** Several sequences one after the other. *)
Lemma appends_ok r m mb0 ss xss (pick : nat -> res src) : Forall2 (holds m) ss xss ->
  (forall i s, ss !! i = Some s -> pick i = Ok s) ->
  forall mb cells, open_rep E r mb cells -> aside mb0 mb r ->
  length (concat xss) <= length cells ->
  exists mb' cells', for_up (length ss) 0 (fun k '(idx, mb) =>
      let* s := pick k in append_impl E r s m idx mb) (0, mb) = Ok (length (concat xss), mb') /\
    open_rep E r mb' cells' /\ aside mb0 mb' r /\ length cells' = length cells /\
    take (length (concat xss)) cells' = Live <$> concat xss.
Proof.
  intros Hs Hpick mb cells Ho Ha Hlen.
  assert (HH : wp (for_up (length ss) 0 (fun k '(idx, mb) =>
      let* s := pick k in append_impl E r s m idx mb) (0, mb)) (fun '(idx, mb') =>
      idx = length (concat xss) /\ exists cells', open_rep E r mb' cells' /\ aside mb0 mb' r /\
      length cells' = length cells /\ take idx cells' = Live <$> concat xss)).
  { apply (wp_for_up (fun i '(idx, mb') =>
      idx = length (concat (take i xss)) /\ exists cells', open_rep E r mb' cells' /\ aside mb0 mb' r /\
      length cells' = length cells /\ take idx cells' = Live <$> concat (take i xss))).
    - split; [done|]. exists cells. done.
    - intros k [idx mb1] _ Hk (-> & cells1 & Ho1 & Ha1 & Hl1 & Ht1).
      destruct (lookup_lt_is_Some_2 ss k) as [s Hsk]; [lia|].
      destruct (Forall2_lookup_l _ _ _ _ _ Hs Hsk) as (xs & Hxk & Hxs).
      rewrite (Hpick _ _ Hsk). cbn [bind].
      assert (Hconc : concat (take (S k) xss) = concat (take k xss) ++ xs).
      { rewrite (take_S_r _ _ _ Hxk), concat_app. simpl. by rewrite app_nil_r. }
      assert (Hle : length (concat (take k xss)) + length xs <= length (concat xss)).
      { rewrite <- app_length, <- Hconc. rewrite <- (take_drop (S k) xss) at 2.
        rewrite concat_app, app_length. lia. }
      destruct (append_impl_ok r s m xs mb0 mb1 cells1 (concat (take k xss)) Hxs Ho1 Ha1 Ht1) as
        (mb2 & cells2 & -> & Ho2 & Ha2 & Hl2 & Ht2); [lia|]. apply wp_ok.
      split; [by rewrite Hconc, app_length|]. exists cells2. rewrite Hconc, <- app_length. split_and!; try done. lia.
    - intros [idx mb1] (-> & cells1 & Ho1 & Ha1 & Hl1 & Ht1). simpl in *.
      rewrite (Forall2_length _ _ _ Hs) in *. rewrite (take_ge xss) in * by lia. split; [done|]. eauto 8. }
  destruct HH as ([idx mb'] & Eq & -> & cells' & H1 & H2 & H3 & H4). eauto 10.
Qed.

Lemma total_concat {X} (xss : list (list X)) : total (length <$> xss) = length (concat xss).
Proof.
  induction xss as [|xs xss IH]; [done|]. rewrite fmap_cons, total_cons, IH. simpl. by rewrite app_length.
Qed.

Lemma append_ok d order ss xss yss m mb : Forall2 (holds m) ss xss ->
  Permutation order (seq 0 (length ss)) -> Forall2 (fun p ys => xss !! p = Some ys) order yss ->
  assignable E (append_return (s_kind <$> ss)) ->
  exists r mb', append_ E d order ss m mb = Ok (r, mb') /\
    yields mb (append_return (s_kind <$> ss)) (concat yss) r mb'.
Proof.
  intros Hs Hp Hy Ha. unfold append_. rewrite (holds_lens _ _ _ Hs).
  assert (Hf : can_hold (append_return (s_kind <$> ss)) (total (length <$> xss))).
  { eapply result_kind_holds; [|done]. apply total_mono. }
  assert (Hperm : length (concat yss) = total (length <$> xss)).
  { assert (HP : Permutation yss xss).
    { assert (Hyo : yss = omap (fun p => xss !! p) order).
      { clear - Hy. induction Hy as [|p ys order yss Hp _ IH]; [done|]. rewrite IH. csimpl. by rewrite Hp. }
      assert (Hxo : xss = omap (fun p => xss !! p) (seq 0 (length ss))).
      { rewrite (Forall2_length _ _ _ Hs). clear.
        assert (HH : forall pre, omap (fun p => (pre ++ xss) !! p) (seq (length pre) (length xss)) = xss).
        { induction xss as [|xs xss IH]; intros pre; [done|]. csimpl.
          rewrite lookup_app_r, Nat.sub_diag by lia. simpl. f_equal.
          specialize (IH (pre ++ [xs])). rewrite app_length in IH. simpl in IH.
          rewrite Nat.add_1_r, <- app_assoc in IH. done. }
        symmetry. apply (HH []). }
      rewrite Hyo. etrans; [exact (omap_Permutation _ _ _ Hp)|]. by rewrite <- Hxo. }
    rewrite total_concat. clear - HP. induction HP; simpl; rewrite ?app_length in *; try lia. }
  destruct (cont_sized_ok E d _ _ mb Hf Ha) as (r & mb1 & cells & -> & Ho & Hlen & Hk & Has). cbn [bind].
  assert (Hmk : exists sso, length sso = length order /\ Forall2 (holds m) sso yss /\
     forall i s, sso !! i = Some s -> (let* p := get order i in get ss p) = Ok s).
  { clear - Hs Hy. induction Hy as [|p ys order yss Hp _ IH].
    - exists []. split; [done|]. split; [constructor|]. done.
    - destruct IH as (sso & Hl & H2 & H3).
      destruct (Forall2_lookup_r _ _ _ _ _ Hs Hp) as (s & Hsp & Hh).
      exists (s :: sso). split; [simpl; lia|]. split; [by constructor|]. intros [|i] s' Hi; simpl in *.
      + injection Hi as <-. unfold get. simpl. by rewrite Hsp.
      + by apply H3. }
  destruct Hmk as (sso & Hlo & Hso & Hpick).
  destruct (appends_ok r m mb sso yss (fun i => let* p := get order i in get ss p) Hso Hpick mb1 cells Ho Has) as
    (mb2 & cells2 & Eq & Ho2 & Ha2 & Hl2 & Ht2); [lia|].
  assert (Eq' : for_up (length order) 0 (fun k '(idx, mb) => let* p := get order k in
     let* s := get ss p in append_impl E r s m idx mb) (0, mb1) = Ok (length (concat yss), mb2)).
  { rewrite <- Eq, Hlo. apply for_up_ext. intros k [idx mb3]. by rewrite bind_assoc. }
  rewrite Eq'. cbn [bind]. eexists _, _. split; [done|].
  rewrite take_ge in Ht2 by lia. eapply open_yields; try done. by rewrite Hperm.
Qed.

(** ** concat *)
Lemma inner_total_ok m n xss : nholds m n xss -> inner_total n = Ok (length (concat xss)).
Proof.
  intros (_ & H). unfold inner_total. apply wp_eq.
  apply (wp_for_up (fun i t => t = length (concat (take i xss)))).
  - done.
  - intros k t _ Hk ->. destruct (lookup_lt_is_Some_2 (ns_list n) k) as [s Hs]; [lia|].
    destruct (Forall2_lookup_l _ _ _ _ _ H Hs) as (xs & Hx & (Hl & _) & _).
    eapply wp_bind, wp_get; [done|]. apply wp_ok.
    rewrite (take_S_r _ _ _ Hx), concat_app, app_length. simpl. rewrite app_nil_r. lia.
  - intros t ->. simpl. rewrite (Forall2_length _ _ _ H). by rewrite firstn_all.
Qed.

Lemma inner_lens m ss xss k : Forall2 (fun s (xs : list A) => holds m s xs /\ s_kind s = k) ss xss ->
  match k with
  | KArray n => length (concat xss) = length xss * n
  | KArrVec c => length (concat xss) <= length xss * c
  | KVector => True
  end.
Proof.
  intros H. destruct k as [n|c|]; [..|done].
  - induction H as [|s xs ss xss [(_ & Hf & _) Hk] _ IH]; [done|]. simpl. rewrite app_length, IH.
    rewrite Hk in Hf. simpl in Hf. lia.
  - induction H as [|s xs ss xss [(_ & Hf & _) Hk] _ IH]; [done|]. simpl. rewrite app_length.
    rewrite Hk in Hf. simpl in Hf. lia.
Qed.

Lemma concat_holds m n xss : nholds m n xss ->
  can_hold (concat_return (ns_kind n) (ns_inner n)) (length (concat xss)).
Proof.
  intros [Ho Hi]. apply inner_lens in Hi. unfold concat_return.
  destruct (ns_kind n) as [a|a|], (ns_inner n) as [k|k|]; simpl in *; try done; try nia.
Qed.

Lemma concat_ok d n xss m mb : nholds m n xss -> assignable E (concat_return (ns_kind n) (ns_inner n)) ->
  exists r mb', concat_ E d n m mb = Ok (r, mb') /\
    yields mb (concat_return (ns_kind n) (ns_inner n)) (concat xss) r mb'.
Proof.
  intros Hn Ha. unfold concat_. rewrite (inner_total_ok _ _ _ Hn). cbn [bind].
  assert (Hf := concat_holds _ _ _ Hn). destruct Hn as [Ho Hi].
  destruct (cont_sized_ok E d _ _ mb Hf Ha) as (r & mb1 & cells & -> & Hop & Hlen & Hk & Has). cbn [bind].
  assert (Hs : Forall2 (holds m) (ns_list n) xss) by (eapply Forall2_impl; [exact Hi|]; by intros ? ? [? _]).
  destruct (appends_ok r m mb (ns_list n) xss (get (ns_list n)) Hs) with (mb := mb1) (cells := cells)
    as (mb2 & cells2 & Eq & Ho2 & Ha2 & Hl2 & Ht2); try done; [|lia|].
  { intros i s Hi'. unfold get. by rewrite Hi'. }
  rewrite Eq. cbn [bind]. eexists _, _. split; [done|].
  rewrite take_ge in Ht2 by lia. by eapply open_yields.
Qed.

(** ** intercalate *)
Lemma joined_length (sep : list A) xss : xss <> [] ->
  length (joined sep xss) = length (concat xss) + (length xss - 1) * length sep.
Proof.
  intros Hne. destruct xss as [|xs xss]; [done|]. clear Hne. revert xs.
  induction xss as [|ys xss IH]; intros xs; [simpl; rewrite app_nil_r; lia|].
  change (joined sep (xs :: ys :: xss)) with (xs ++ sep ++ joined sep (ys :: xss)).
  rewrite !app_length, IH. simpl. rewrite !app_length. simpl. rewrite Nat.sub_0_r. lia.
Qed.

Lemma joined_snoc (sep : list A) xss xs : joined sep (xss ++ [xs]) = concat ((fun l => l ++ sep) <$> xss) ++ xs.
Proof.
  induction xss as [|ys xss IH]; [done|]. rewrite fmap_cons. simpl. rewrite <- app_assoc, <- app_assoc, <- IH.
  destruct xss; done.
Qed.

Lemma intercalate_holds m del sep n xss : holds m del sep -> nholds m n xss ->
  can_hold (intercalate_return (s_kind del) (ns_kind n) (ns_inner n)) (length (joined sep xss)).
Proof.
  intros (_ & Hd & _) [Ho Hi]. apply inner_lens in Hi. unfold intercalate_return.
  destruct xss as [|xs xss].
  - destruct (s_kind del), (ns_kind n), (ns_inner n); simpl in *; try done; try lia.
  - rewrite joined_length by done.
    destruct (s_kind del), (ns_kind n), (ns_inner n); simpl in *; try done; try nia.
Qed.

Lemma cont_new_empty d k mb : can_hold k 0 -> exists r mb', cont_new E d k mb = Ok (r, mb') /\ yields mb k [] r mb'.
Proof.
  intros Hk. destruct k as [c|cap|]; simpl in *.
  - subst c. destruct (arr_new_rep E 0 d mb) as (b & m' & Eq & Hr & (Hl & Ho & Hal)).
    simpl in Eq. rewrite Eq. simpl. eexists _, _. split; [done|].
    split; [done|]. split; [split_and!; done|]. split; [done|]. split; [done|]. split; [|simpl; lia].
    intros b' cs Hb. destruct (Ho _ _ Hb). split; [done|]. simpl. congruence.
  - destruct (av_new_rep E cap mb) as (v & m' & Eq & Hr & (Hl & Ho & Hal)).
    unfold av_new in Eq. simpl in Eq. injection Eq as <- <-. eexists _, _. split; [done|].
    split; [done|]. split; [split_and!; done|]. split; [simpl; lia|]. split; [done|]. split; [|simpl in *; lia].
    intros b' cs Hb. destruct (Ho _ _ Hb). split; [done|]. simpl in *. congruence.
  - eexists _, _. split; [done|]. split; [done|]. split; [split_and!; done|]. split; [done|]. split; [done|].
    split; [done|]. simpl. lia.
Qed.

Lemma intercalate_ok d del sep n xss m mb : holds m del sep -> nholds m n xss ->
  assignable E (intercalate_return (s_kind del) (ns_kind n) (ns_inner n)) ->
  exists r mb', intercalate_ E d del n m mb = Ok (r, mb') /\
    yields mb (intercalate_return (s_kind del) (ns_kind n) (ns_inner n)) (joined sep xss) r mb'.
Proof.
  intros Hd Hn Ha. assert (Hf := intercalate_holds _ _ _ _ _ Hd Hn).
  assert (Htot := inner_total_ok _ _ _ Hn). destruct Hn as [Ho Hi].
  assert (Hs : Forall2 (holds m) (ns_list n) xss) by (eapply Forall2_impl; [exact Hi|]; by intros ? ? [? _]).
  assert (Hlen := Forall2_length _ _ _ Hs).
  unfold intercalate_. set (k := intercalate_return _ _ _) in *.
  case_decide as Hz.
  { destruct xss; [|simpl in *; lia]. destruct (cont_new_empty d k mb Hf) as (r & mb' & -> & Hy). cbn [bind]. eauto. }
  destruct (list_eq_nil_dec xss) as [->|Hne]; [simpl in *; lia|].
  destruct (exists_last Hne) as (xsi & xsl & ->). rewrite joined_snoc in *.
  set (front := (fun l => l ++ sep) <$> xsi) in *.
  destruct (Hd) as (Hdl & _).
  assert (Hjl : length (concat front ++ xsl) = length (concat (xsi ++ [xsl])) + (length (ns_list n) - 1) * s_len del).
  { unfold front. rewrite <- joined_snoc. rewrite joined_length by done. by rewrite Hlen, Hdl. }
  destruct (cont_sized_ok E d k _ mb Hf Ha) as (r & mb1 & cells & Eq & Hop & Hcl & Hk & Has).
  unfold cont_sized in Eq. destruct (cont_new E d k mb) as [[r0 mb0]| | |]; try done. cbn [bind] in *.
  rewrite Htot. cbn [bind]. rewrite <- Hjl, Eq. cbn [bind]. clear Eq.
  assert (HH : wp (for_up (length (ns_list n) - 1) 0 (fun i '(idx, mb) =>
      let* s := get (ns_list n) i in
      let* (idx, mb) := append_impl E r s m idx mb in
      append_impl E r del m idx mb) (0, mb1)) (fun '(idx, mb') =>
      idx = length (concat front) /\ exists cells', open_rep E r mb' cells' /\ aside mb mb' r /\
      length cells' = length cells /\ take idx cells' = Live <$> concat front)).
  { assert (Hfl : length (ns_list n) - 1 = length front).
    { unfold front. rewrite Hlen, app_length, fmap_length. simpl. lia. }
    apply (wp_for_up (fun i '(idx, mb') =>
      idx = length (concat (take i front)) /\ exists cells', open_rep E r mb' cells' /\ aside mb mb' r /\
      length cells' = length cells /\ take idx cells' = Live <$> concat (take i front))).
    - split; [done|]. by exists cells.
    - intros i [idx mb2] _ Hk2 (-> & cells2 & Ho2 & Ha2 & Hl2 & Ht2).
      destruct (lookup_lt_is_Some_2 (ns_list n) i) as [s Hsk]; [lia|].
      destruct (Forall2_lookup_l _ _ _ _ _ Hs Hsk) as (xs & Hxk & Hxs).
      eapply wp_bind, wp_get; [done|].
      rewrite lookup_app_l in Hxk by (unfold front in Hfl; rewrite fmap_length in Hfl; lia).
      assert (Hfi : front !! i = Some (xs ++ sep)) by (unfold front; by rewrite list_lookup_fmap, Hxk).
      assert (Hconc : concat (take (S i) front) = concat (take i front) ++ xs ++ sep).
      { rewrite (take_S_r _ _ _ Hfi), concat_app. simpl. by rewrite app_nil_r. }
      assert (Hle : length (concat (take i front)) + length xs + length sep <= length cells).
      { rewrite Hcl. rewrite <- Nat.add_assoc, <- app_length, <- app_length, <- Hconc.
        rewrite <- (take_drop (S i) front) at 2. rewrite concat_app, !app_length. lia. }
      destruct (append_impl_ok r s m xs mb mb2 cells2 (concat (take i front)) Hxs Ho2 Ha2 Ht2) as
        (mb3 & cells3 & -> & Ho3 & Ha3 & Hl3 & Ht3); [lia|]. cbn [bind].
      rewrite <- app_length.
      destruct (append_impl_ok r del m sep mb mb3 cells3 (concat (take i front) ++ xs) Hd Ho3 Ha3 Ht3) as
        (mb4 & cells4 & -> & Ho4 & Ha4 & Hl4 & Ht4); [rewrite app_length; lia|]. apply wp_ok.
      rewrite Hconc, app_assoc. split; [by rewrite <- app_length|]. exists cells4. rewrite <- app_length.
      split_and!; try done. lia.
    - intros [idx mb2] (-> & cells2 & Ho2 & Ha2 & Hl2 & Ht2). simpl in *.
      rewrite (take_ge front) in * by lia. split; [done|]. eauto 8. }
  destruct HH as ([idx mb2] & -> & -> & cells2 & Ho2 & Ha2 & Hl2 & Ht2). cbn [bind].
  replace (length (ns_list n) - 1) with (length xsi) by (rewrite Hlen, app_length; simpl; lia).
  assert (Hlast : (xsi ++ [xsl]) !! length xsi = Some xsl).
  { rewrite lookup_app_r, Nat.sub_diag by lia. done. }
  destruct (Forall2_lookup_r _ _ _ _ _ Hs Hlast) as (s & Hsl & Hxl).
  unfold get at 1. rewrite Hsl. cbn [bind].
  destruct (append_impl_ok r s m xsl mb mb2 cells2 (concat front) Hxl Ho2 Ha2 Ht2) as
        (mb3 & cells3 & -> & Ho3 & Ha3 & Hl3 & Ht3); [by rewrite <- app_length, <- Hcl, Hl2|]. cbn [bind].
  eexists _, _. split; [done|]. rewrite take_ge in Ht3 by lia. by eapply open_yields.
Qed.

(** ** Class types *)
Lemma append_impl_class r s m x xs mb : holds m s (x :: xs) -> (forall y, cont_set E r 0 y mb = UB DeadObject) ->
  append_impl E r s m 0 mb = UB DeadObject.
Proof.
  intros Hs Hr. unfold append_impl. destruct (Hs) as (-> & _). simpl.
  rewrite (holds_nth _ _ _ 0 x Hs eq_refl). simpl. by rewrite Hr.
Qed.

Lemma append_class d s ss x xs xss m mb : triv E = false ->
  ct_size (append_return (s_kind <$> (s :: ss))) = None -> Forall2 (holds m) (s :: ss) ((x :: xs) :: xss) ->
  append_ E d (seq 0 (length (s :: ss))) (s :: ss) m mb = UB DeadObject.
Proof.
  intros Ht Hk Hs. unfold append_. rewrite (holds_lens _ _ _ Hs).
  destruct (cont_sized_class E d (append_return (s_kind <$> (s :: ss))) (total (length <$> ((x :: xs) :: xss))) mb Ht Hk)
    as (r & mb' & -> & Hset).
  - eapply result_kind_holds; [|done]. apply total_mono.
  - rewrite total_concat. simpl. lia.
  - cbn [bind]. rewrite seq_length. cbn [length seq for_up]. cbn [get lookup list_lookup bind].
    inversion Hs; subst. by rewrite (append_impl_class r s m x xs mb').
Qed.

Lemma concat_class d ko ki s ss x xs xss m mb : triv E = false -> ct_size (concat_return ko ki) = None ->
  nholds m (NSrc ko ki (s :: ss)) ((x :: xs) :: xss) ->
  concat_ E d (NSrc ko ki (s :: ss)) m mb = UB DeadObject.
Proof.
  intros Ht Hk Hn. unfold concat_. rewrite (inner_total_ok _ _ _ Hn). cbn [bind].
  destruct (cont_sized_class E d (concat_return ko ki) (length (concat ((x :: xs) :: xss))) mb Ht Hk)
    as (r & mb' & Heq & Hset).
  - apply (concat_holds _ _ _ Hn).
  - simpl. lia.
  - cbn [ns_kind ns_inner]. rewrite Heq. cbn [bind length ns_list for_up get lookup list_lookup].
    destruct Hn as [_ Hn]. inversion Hn as [|? ? ? ? [Hs _] _]; subst. by rewrite (append_impl_class r s m x xs mb').
Qed.
End seqs.
