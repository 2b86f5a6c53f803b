(** Proofs about Enum. *)
From Verif Require Import Base.Cpp Model.Enum Spec.EnumSpec.
Set Default Proof Using "Type".

(** ** Dispatch *)
Lemma ceiling_step f n p :
  power_2_ceiling (S f) n p =
  if decide (n <= p) then Some (p - 1) else power_2_ceiling f n ((p * 2) mod 256).
Proof. reflexivity. Qed.

Lemma ceiling_ok n : n <= 128 -> exists p, power_2_ceiling 256 n 2 = Some p /\ n <= S p.
Proof.
  intros H.
  do 6 (rewrite ceiling_step; case_decide; [eexists; split; [reflexivity|lia]|];
    match goal with |- context [?a mod 256] => let v := eval vm_compute in (a mod 256) in
      change (a mod 256) with v end).
  rewrite ceiling_step. rewrite decide_True by lia. eexists; split; [reflexivity|lia].
Qed.

Lemma switch_ok {X} n i (case : nat -> res X) : n <= 128 -> i < n -> enum_switch n i case = case i.
Proof.
  intros Hn Hi. unfold enum_switch. destruct (ceiling_ok n Hn) as (p & -> & Hp).
  rewrite decide_False by lia. rewrite decide_True by lia. by rewrite decide_True by lia.
Qed.

Lemma ceiling_never n : 129 <= n <= 255 -> forall fuel, power_2_ceiling fuel n 2 = None.
Proof.
  intros Hn.
  assert (forall fuel p, p ∈ [0; 2; 4; 8; 16; 32; 64; 128] -> power_2_ceiling fuel n p = None) as H.
  { induction fuel as [|fuel IH]; intros p Hp; [done|].
    rewrite ceiling_step. rewrite decide_False.
    - apply IH. repeat (apply elem_of_cons in Hp as [->|Hp]; [cbn; set_solver|]). set_solver.
    - repeat (apply elem_of_cons in Hp as [->|Hp]; [lia|]). set_solver. }
  intros fuel. apply H. set_solver.
Qed.

(** ** Objects *)
Lemma alt_index_pos (l : list nat) t : t ∈ l ->
  exists k, alt_index l t = Some k /\ position l t k /\ k < length l.
Proof.
  induction l as [|t' l IH]; intros Ht; [set_solver|]. simpl. case_decide as E.
  - subst t'. exists 0. repeat split; [|lia]. intros; lia.
  - apply elem_of_cons in Ht as [?|Ht]; [done|].
    destruct (IH Ht) as (k & -> & [Hk Hl] & Hlt). exists (S k). split; [done|]. repeat split; [done| |lia].
    intros [|i] Hi; simpl; [congruence|]. apply Hl. lia.
Qed.

Lemma position_index (l : list nat) t k : position l t k -> alt_index l t = Some k.
Proof.
  revert k. induction l as [|t' l IH]; intros k [Hk Hl]; [done|]. simpl. case_decide as E.
  - destruct k; [done|]. exfalso. apply (Hl 0); [lia|]. by subst.
  - destruct k; [simpl in Hk; congruence|]. rewrite (IH k); [done|]. split; [done|].
    intros i Hi. apply (Hl (S i)). lia.
Qed.

Lemma alt_index_none (l : list nat) t : alt_index l t = None -> t ∉ l.
Proof. intros H Ht. destruct (alt_index_pos l t Ht) as (k & Hk & _). congruence. Qed.

Section proofs.
Context {V : Type} (alts : list nat) (d : V) (mvd : nat -> V -> V).

Definition idx t := default 0 (alt_index alts t).
Definition enc (x : nat * V) : eobj V := EObj (idx (fst x)) (Some x).
Definition repr (s : estate V) : list (option (eobj V)) :=
  fmap (M:=list) (fmap (M:=option) enc) s.

Record rep (s : estate V) (m : emem V) : Prop := Rep {
  rep_objs : e_objs m = repr s;
  rep_alts : forall i t v, held s i = Some (t, v) -> t ∈ alts;
  rep_events : e_ctors m ≡ₚ e_dtors m ++ held_types s }.

Lemma idx_ok t : t ∈ alts ->
  alt_index alts t = Some (idx t) /\ alts !! idx t = Some t /\ idx t < length alts.
Proof.
  intros Ht. destruct (alt_index_pos alts t Ht) as (k & Hk & [Hp _] & Hl). unfold idx. by rewrite Hk.
Qed.

Lemma held_lookup (s : estate V) i x : held s i = Some x <-> s !! i = Some (Some x).
Proof. unfold held. destruct (s !! i) as [[y|]|]; simpl; split; intros H; congruence. Qed.

Lemma e_at_repr s m i x : e_objs m = repr s -> s !! i = Some (Some x) -> e_at m i = Ok (enc x).
Proof. intros Hm Hi. unfold e_at. rewrite Hm. unfold repr. by rewrite list_lookup_fmap, Hi. Qed.

Lemma repr_insert s i x : <[i := Some (enc x)]> (repr s) = repr (<[i := Some x]> s).
Proof. unfold repr. by rewrite list_fmap_insert. Qed.
Lemma repr_insert_none s i : <[i := None]> (repr s) = repr (<[i := None]> s).
Proof. unfold repr. by rewrite list_fmap_insert. Qed.
Lemma repr_app s x : repr s ++ [Some (enc x)] = repr (s ++ [Some x]).
Proof. unfold repr. by rewrite fmap_app. Qed.
Lemma repr_length s : length (repr s) = length s.
Proof. apply fmap_length. Qed.

Lemma types_app (s : estate V) x : held_types (s ++ [Some x]) ≡ₚ fst x :: held_types s.
Proof.
  unfold held_types. rewrite omap_app. simpl. rewrite Permutation_app_comm. done.
Qed.
Lemma types_take (s : estate V) i o : s !! i = Some o ->
  held_types s ≡ₚ option_list (fst <$> o) ++ held_types (delete i s).
Proof.
  intros H. rewrite <- (take_drop_middle s i o H) at 1. rewrite delete_take_drop. unfold held_types.
  rewrite !omap_app. destruct o as [x|]; csimpl; [|done].
  by rewrite <- Permutation_middle.
Qed.
Lemma types_insert (s : estate V) i o o' : s !! i = Some o ->
  held_types (<[i := o']> s) ≡ₚ option_list (fst <$> o') ++ held_types (delete i s).
Proof.
  intros H. assert (i < length s) by (by eapply lookup_lt_Some).
  rewrite (types_take (<[i := o']> s) i o') by (apply list_lookup_insert; lia).
  f_equiv. replace (delete i (<[i := o']> s)) with (delete i s); [done|].
  rewrite !delete_take_drop, take_insert, drop_insert_gt by lia. done.
Qed.
Lemma types_same (s : estate V) i x x' : s !! i = Some (Some x) -> fst x = fst x' ->
  held_types (<[i := Some x']> s) ≡ₚ held_types s.
Proof.
  intros H E. rewrite (types_insert s i (Some x)), (types_take s i (Some x)) by done. simpl.
  by rewrite E.
Qed.

Lemma alts_insert (s : estate V) i t v :
  (forall i t v, held s i = Some (t, v) -> t ∈ alts) -> t ∈ alts ->
  forall i' t' v', held (<[i := Some (t, v)]> s) i' = Some (t', v') -> t' ∈ alts.
Proof.
  intros Hs Ht i' t' v' H. apply held_lookup, list_lookup_insert_Some in H.
  destruct H as [(_ & ? & _)|(_ & H)]; [congruence|]. by eapply Hs, held_lookup.
Qed.
Lemma alts_app (s : estate V) t v :
  (forall i t v, held s i = Some (t, v) -> t ∈ alts) -> t ∈ alts ->
  forall i' t' v', held (s ++ [Some (t, v)]) i' = Some (t', v') -> t' ∈ alts.
Proof.
  intros Hs Ht i' t' v' H. apply held_lookup, lookup_app_Some in H.
  destruct H as [H|(_ & H)]; [by eapply Hs, held_lookup|].
  destruct (i' - length s); simpl in H; [congruence|]. done.
Qed.
Lemma alts_gone (s : estate V) i :
  (forall i t v, held s i = Some (t, v) -> t ∈ alts) ->
  forall i' t' v', held (<[i := None]> s) i' = Some (t', v') -> t' ∈ alts.
Proof.
  intros Hs i' t' v' H. apply held_lookup, list_lookup_insert_Some in H.
  destruct H as [(_ & ? & _)|(_ & H)]; [congruence|]. by eapply Hs, held_lookup.
Qed.

Lemma pack_at_ok i t : alts !! i = Some t -> pack_at alts i = Ok t.
Proof. intros H. unfold pack_at. by rewrite H. Qed.

Lemma e_read_enc t v : e_read (enc (t, v)) t = Ok v.
Proof. unfold e_read. simpl. by rewrite decide_True. Qed.

Lemma e_at_ins (m : emem V) i o : i < length (e_objs m) ->
  e_at (EMem (<[i := Some o]> (e_objs m)) (e_ctors m) (e_dtors m)) i = Ok o.
Proof. intros H. unfold e_at. simpl. by rewrite list_lookup_insert. Qed.

Lemma e_at_app_old (m : emem V) k j o c e : e_at m j = Ok o ->
  e_at (EMem (e_objs m ++ [Some (EObj k None)]) c e) j = Ok o.
Proof.
  unfold e_at. simpl. intros H. destruct (e_objs m !! j) as [[?|]|] eqn:E; try done.
  by rewrite (lookup_app_l_Some _ _ _ _ E).
Qed.
Lemma e_at_app_new (m : emem V) k c e :
  e_at (EMem (e_objs m ++ [Some (EObj k None)]) c e) (length (e_objs m)) = Ok (EObj k None).
Proof. unfold e_at. simpl. by rewrite list_lookup_middle. Qed.

Lemma ins_app_new (l : list (option (eobj V))) x y : <[length l := y]> (l ++ [x]) = l ++ [y].
Proof. rewrite <- (Nat.add_0_r (length l)), insert_app_r. done. Qed.

(** Construction of a new object of alternative [t] in fresh storage. *)
Lemma construct_new (m : emem V) k t v c e :
  e_construct (EMem (e_objs m ++ [Some (EObj k None)]) c e) (length (e_objs m)) t v =
  Ok (EMem (e_objs m ++ [Some (EObj k (Some (t, v)))]) (t :: c) e).
Proof. unfold e_construct. rewrite e_at_app_new. simpl. by rewrite ins_app_new. Qed.

Hypothesis Halts : 1 <= length alts <= 128.
Lemma alt_num_eq : alt_num alts = length alts.
Proof using Halts. unfold alt_num. apply Nat.mod_small. lia. Qed.

Lemma switch_held {X} t (case : nat -> res X) : t ∈ alts ->
  enum_switch (alt_num alts) (idx t) case = case (idx t).
Proof using Halts.
  intros Ht. destruct (idx_ok t Ht) as (_ & _ & Hl). rewrite alt_num_eq. apply switch_ok; lia.
Qed.

Lemma step_ok s m o s' : rep s m -> spec_step alts d mvd s o = Some s' ->
  wp (e_step alts d mvd o m) (rep s').
Proof using Halts.
  intros [Ho Ha He] Hs. destruct o as [|b t v|j|j|b i j|t i v|t i|i]; simpl in Hs |- *.
  - (* NewDefault *)
    assert (exists t, alts !! 0 = Some t /\ s' = s ++ [Some (t, d)]) as (t & H0 & ->)
      by (destruct alts; [done|]; injection Hs as <-; eauto).
    unfold e_default. cbn [e_alloc fst snd]. rewrite (pack_at_ok 0 t H0). cbn [bind].
    rewrite construct_new. cbn [bind]. apply wp_ok.
    assert (t ∈ alts) as Ht by (by eapply elem_of_list_lookup_2). split; simpl.
    + rewrite Ho. replace (EObj 0 (Some (t, d))) with (enc (t, d)); [apply repr_app|].
      unfold enc, idx. rewrite (position_index alts (fst (t, d)) 0); [done|]. split; [done|lia].
    + by apply alts_app.
    + rewrite types_app, He. simpl. by rewrite Permutation_middle.
  - (* NewFrom *)
    case_decide as Ht; [|done]. injection Hs as <-. unfold e_from.
    destruct (idx_ok t Ht) as (Hi & Hp & Hl). rewrite Hi. cbn [e_alloc fst snd].
    rewrite Nat.mod_small by lia. unfold never. rewrite andb_false_r. rewrite construct_new. simpl.
    apply wp_ok. split; simpl.
    + rewrite Ho. by rewrite <- repr_app.
    + by apply alts_app.
    + rewrite types_app, He. simpl. by rewrite Permutation_middle.
  - (* NewCopy *)
    destruct (held s j) as [[t v]|] eqn:Hj; [|done]. injection Hs as <-.
    assert (t ∈ alts) as Ht by eauto. pose proof (proj1 (held_lookup _ _ _) Hj) as Hj'.
    destruct (idx_ok t Ht) as (Hi & Hp & Hl).
    unfold e_copy. rewrite (e_at_repr s m j (t, v)) by done. cbn [bind e_alloc fst snd].
    cbn [enc e_idx fst]. rewrite (switch_held t) by done. unfold copy_case.
    rewrite (pack_at_ok _ t) by done. cbn [bind].
    rewrite (e_at_app_old m _ _ (enc (t, v))) by (by eapply e_at_repr). cbn [bind].
    rewrite e_read_enc. cbn [bind never]. rewrite construct_new. simpl. apply wp_ok. split; simpl.
    + rewrite Ho. by rewrite <- repr_app.
    + by apply alts_app.
    + rewrite types_app, He. simpl. by rewrite Permutation_middle.
  - (* NewMove *)
    destruct (held s j) as [[t v]|] eqn:Hj; [|done]. injection Hs as <-.
    assert (t ∈ alts) as Ht by eauto. pose proof (proj1 (held_lookup _ _ _) Hj) as Hj'.
    assert (j < length s) as Hlt by (by eapply lookup_lt_Some).
    destruct (idx_ok t Ht) as (Hi & Hp & Hl).
    unfold e_move. rewrite (e_at_repr s m j (t, v)) by done. cbn [bind e_alloc fst snd].
    cbn [enc e_idx fst]. rewrite (switch_held t) by done. unfold move_case.
    rewrite (pack_at_ok _ t) by done. cbn [bind].
    rewrite (e_at_app_old m _ _ (enc (t, v))) by (by eapply e_at_repr). cbn [bind].
    rewrite e_read_enc. cbn [bind]. rewrite construct_new. cbn [bind].
    rewrite Ho at 1. change (EObj (idx t) (Some (t, v))) with (enc (t, v)). rewrite repr_app.
    rewrite (e_at_repr (s ++ [Some (t, v)]) _ j (t, v)); [|done|by apply lookup_app_l_Some].
    simpl. apply wp_ok. unfold e_put. cbn [e_objs e_ctors e_dtors].
    change (EObj (idx t) (Some (t, mvd t v))) with (enc (t, mvd t v)). split; simpl.
    + rewrite ?Ho, ?repr_app, repr_insert. by rewrite insert_app_l.
    + apply alts_app; [|done]. by apply alts_insert.
    + rewrite types_app. rewrite (types_same s j (t, v)) by done. rewrite He. simpl.
      by rewrite Permutation_middle.
  - (* Assign *)
    destruct (held s i) as [[t1 v1]|] eqn:Hi; [|done].
    destruct (held s j) as [[t v]|] eqn:Hj; [|done].
    pose proof (proj1 (held_lookup _ _ _) Hi) as Hi'. pose proof (proj1 (held_lookup _ _ _) Hj) as Hj'.
    assert (i < length s) as Hlti by (by eapply lookup_lt_Some).
    assert (j < length s) as Hltj by (by eapply lookup_lt_Some).
    unfold e_assign. case_decide as Hij; [injection Hs as <-; by apply wp_ok|].
    assert (t1 ∈ alts) as Ht1 by eauto. assert (t ∈ alts) as Ht by eauto.
    destruct (idx_ok t Ht) as (Hk & Hp & Hl). destruct (idx_ok t1 Ht1) as (_ & Hp1 & _).
    rewrite (e_at_repr s m i (t1, v1)) by done. cbn [bind enc e_idx fst].
    rewrite (switch_held t1) by done. unfold destroy_case. rewrite (pack_at_ok _ t1) by done. cbn [bind].
    rewrite (e_at_repr s m i (t1, v1)) by done. cbn [bind]. rewrite e_read_enc. cbn [bind]. unfold quiet.
    change (e_idx (enc (t1, v1))) with (idx t1).
    set (m1 := EMem (<[i:=Some (EObj (idx t1) None)]> (e_objs m)) (e_ctors m) (t1 :: e_dtors m)).
    assert (e_at m1 j = Ok (enc (t, v))) as Hmj.
    { unfold e_at. simpl. rewrite list_lookup_insert_ne by done. rewrite Ho. unfold repr.
      by rewrite list_lookup_fmap, Hj'. }
    assert (length (e_objs m) = length s) as Hlen by (by rewrite Ho, repr_length).
    rewrite Hmj. cbn [bind enc e_idx fst].
    assert (e_at m1 i = Ok (EObj (idx t1) None)) as ->
      by (unfold e_at; simpl; rewrite list_lookup_insert by lia; done).
    cbn [bind e_obj]. unfold e_put. subst m1. cbn [e_objs e_ctors e_dtors].
    rewrite list_insert_insert.
    set (m2 := EMem (<[i:=Some (EObj (idx t) None)]> (e_objs m)) (e_ctors m) (t1 :: e_dtors m)).
    assert (e_at m2 j = Ok (enc (t, v))) as Hmj2.
    { unfold e_at. simpl. rewrite list_lookup_insert_ne by done. rewrite Ho. unfold repr.
      by rewrite list_lookup_fmap, Hj'. }
    assert (forall x, e_construct m2 i t x =
      Ok (EMem (repr (<[i := Some (t, x)]> s)) (t :: e_ctors m) (t1 :: e_dtors m))) as Hc.
    { intros x. unfold e_construct, e_at. simpl. rewrite list_lookup_insert by lia. simpl.
      rewrite list_insert_insert. rewrite Ho. change (EObj (idx t) (Some (t, x))) with (enc (t, x)).
      by rewrite repr_insert. }
    destruct b; rewrite !(switch_held t) by done.
    + injection Hs as <-. unfold move_case. rewrite (pack_at_ok _ t) by done. cbn [bind].
      rewrite Hmj2. cbn [bind]. rewrite e_read_enc. cbn [bind]. rewrite Hc. cbn [bind].
      rewrite (e_at_repr (<[i := Some (t, v)]> s) _ j (t, v)); [|done|by rewrite list_lookup_insert_ne].
      simpl. apply wp_ok. unfold e_put. cbn [e_objs e_ctors e_dtors].
      change (EObj (idx t) (Some (t, mvd t v))) with (enc (t, mvd t v)). split; simpl.
      * rewrite repr_insert. f_equal. apply list_insert_commute. done.
      * apply alts_insert; [by apply alts_insert|done].
      * rewrite (types_insert _ i (Some (t1, v1))) by (by rewrite list_lookup_insert_ne). simpl.
        rewrite He. rewrite <- (types_same s j (t, v) (t, mvd t v)) by done.
        rewrite (types_take (<[j:=Some (t, mvd t v)]> s) i (Some (t1, v1)))
          by (by rewrite list_lookup_insert_ne).
        simpl. rewrite <- !Permutation_middle. apply perm_swap.
    + injection Hs as <-. unfold copy_case. rewrite (pack_at_ok _ t) by done. cbn [bind].
      rewrite Hmj2. cbn [bind]. rewrite e_read_enc. cbn [bind never]. rewrite Hc. cbn [bind].
      apply wp_ok. split; simpl.
      * done.
      * by apply alts_insert.
      * rewrite (types_insert _ i (Some (t1, v1))) by done. simpl.
        rewrite He. rewrite (types_take s i (Some (t1, v1))) by done. simpl.
        rewrite <- !Permutation_middle. apply perm_swap.
  - (* SetValue *)
    destruct (held s i) as [[t1 v1]|] eqn:Hi; [|done]. case_decide; [|done]. subst t1. injection Hs as <-.
    assert (t ∈ alts) as Ht by eauto. pose proof (proj1 (held_lookup _ _ _) Hi) as Hi'.
    destruct (idx_ok t Ht) as (Hk & Hp & Hl).
    unfold e_set, e_get. rewrite (e_at_repr s m i (t, v1)) by done. cbn [bind enc e_idx fst].
    rewrite Hk, decide_True by done. change (EObj (idx t) (Some (t, v1))) with (enc (t, v1)).
    rewrite e_read_enc. cbn [bind]. apply wp_ok. unfold e_put. cbn [enc e_idx fst].
    change (EObj (idx t) (Some (t, v))) with (enc (t, v)). split; simpl.
    + rewrite Ho. apply repr_insert.
    + by apply alts_insert.
    + rewrite (types_same s i (t, v1)) by done. done.
  - (* TakeValue *)
    destruct (held s i) as [[t1 v1]|] eqn:Hi; [|done]. case_decide; [|done]. subst t1. injection Hs as <-.
    assert (t ∈ alts) as Ht by eauto. pose proof (proj1 (held_lookup _ _ _) Hi) as Hi'.
    destruct (idx_ok t Ht) as (Hk & Hp & Hl).
    unfold e_take, e_get. rewrite (e_at_repr s m i (t, v1)) by done. cbn [bind enc e_idx fst].
    rewrite Hk, decide_True by done. change (EObj (idx t) (Some (t, v1))) with (enc (t, v1)).
    rewrite e_read_enc. cbn [bind]. apply wp_ok. unfold e_put. cbn [enc e_idx fst].
    change (EObj (idx t) (Some (t, mvd t v1))) with (enc (t, mvd t v1)). split; simpl.
    + rewrite Ho. apply repr_insert.
    + by apply alts_insert.
    + rewrite (types_same s i (t, v1)) by done. done.
  - (* Destroy *)
    destruct (held s i) as [[t1 v1]|] eqn:Hi; [|done]. injection Hs as <-.
    assert (t1 ∈ alts) as Ht by eauto. pose proof (proj1 (held_lookup _ _ _) Hi) as Hi'.
    assert (i < length s) as Hlti by (by eapply lookup_lt_Some).
    destruct (idx_ok t1 Ht) as (Hk & Hp & Hl).
    unfold e_destroy. rewrite (e_at_repr s m i (t1, v1)) by done. cbn [bind enc e_idx fst].
    rewrite (switch_held t1) by done. unfold destroy_case. rewrite (pack_at_ok _ t1) by done. cbn [bind].
    rewrite (e_at_repr s m i (t1, v1)) by done. cbn [bind]. rewrite e_read_enc. cbn [bind]. unfold quiet.
    unfold e_at. cbn [e_objs]. rewrite list_lookup_insert by (rewrite Ho, repr_length; lia).
    cbn [bind e_objs e_ctors e_dtors]. apply wp_ok. split; simpl.
    + rewrite list_insert_insert. rewrite Ho. apply repr_insert_none.
    + by apply alts_gone.
    + rewrite (types_insert _ i (Some (t1, v1))) by done. simpl.
      rewrite He. rewrite (types_take s i (Some (t1, v1))) by done. simpl.
      by rewrite <- !Permutation_middle.
Qed.

Lemma run_ok h s m s' : rep s m -> spec_run alts d mvd s h = Some s' ->
  wp (e_run alts d mvd h m) (rep s').
Proof using Halts.
  revert s m. induction h as [|o h IH]; intros s m Hr Hs; simpl in *.
  - injection Hs as <-. by apply wp_ok.
  - destruct (spec_step alts d mvd s o) as [s1|] eqn:E; [|done].
    apply wp_bind. eapply wp_mono; [by eapply step_ok|]. intros m1 Hm1. by eapply IH.
Qed.

Lemma rep_nil : rep [] no_objects.
Proof. split; simpl; [done| |done]. intros i t v H. unfold held in H. by rewrite lookup_nil in H. Qed.

Lemma history_ok h s : spec_run alts d mvd [] h = Some s ->
  exists m, e_run alts d mvd h no_objects = Ok m /\ rep s m.
Proof using Halts. intros H. destruct (run_ok h [] no_objects s rep_nil H) as (m & ? & ?); eauto. Qed.

(** ** Observers *)
Lemma index_ok s m i t v : rep s m -> s !! i = Some (Some (t, v)) ->
  exists k, e_index i m = Ok k /\ position alts t k.
Proof using Halts.
  intros [Ho Ha He] Hi. assert (t ∈ alts) as Ht by (by eapply Ha, held_lookup).
  destruct (alt_index_pos alts t Ht) as (k & Hk & Hp & _). exists k. split; [|done].
  unfold e_index. rewrite (e_at_repr s m i (t, v)) by done. simpl. unfold idx. by rewrite Hk.
Qed.

Lemma get_ok s m i t v t' : rep s m -> s !! i = Some (Some (t, v)) -> t' ∈ alts ->
  e_get alts t' i m = if decide (t' = t) then Ok v else Throw.
Proof using Halts.
  intros [Ho Ha He] Hi Ht'. assert (t ∈ alts) as Ht by (by eapply Ha, held_lookup).
  destruct (idx_ok t Ht) as (Hk & Hp & Hl). destruct (idx_ok t' Ht') as (Hk' & Hp' & Hl').
  unfold e_get. rewrite (e_at_repr s m i (t, v)) by done. cbn [bind enc e_idx fst].
  rewrite Hk'. destruct (decide (t' = t)) as [->|Hne].
  - rewrite decide_True by done. apply e_read_enc.
  - rewrite decide_False; [done|]. intros E. injection E as E. rewrite E in Hp. congruence.
Qed.

Lemma get_at_ok s m i t v k t' : rep s m -> s !! i = Some (Some (t, v)) -> alts !! k = Some t' ->
  (position alts t k -> e_get_at alts k i m = Ok v) /\
  (~ position alts t k -> e_get_at alts k i m = Throw).
Proof using Halts.
  intros [Ho Ha He] Hi Ht'. assert (t ∈ alts) as Ht by (by eapply Ha, held_lookup).
  destruct (alt_index_pos alts t Ht) as (k0 & Hk & Hp & Hl).
  assert (idx t = k0) as Hidx by (unfold idx; by rewrite Hk).
  unfold e_get_at. rewrite (e_at_repr s m i (t, v)) by done. cbn [bind enc e_idx fst].
  rewrite (pack_at_ok _ t') by done. cbn [bind]. rewrite Hidx. split; intros Hq.
  - apply position_index in Hq as E. rewrite Hk in E. injection E as <-. rewrite decide_True by done.
    destruct Hp as [Hp _]. assert (t' = t) as -> by congruence.
    unfold e_read. simpl. by rewrite decide_True.
  - rewrite decide_False; [done|]. intros <-. done.
Qed.

Lemma take_value_ok s m i t v : rep s m -> s !! i = Some (Some (t, v)) ->
  exists m', e_take alts mvd t i m = Ok (v, m').
Proof using Halts.
  intros Hr Hi. assert (t ∈ alts) as Ht by (by eapply (rep_alts _ _ Hr), held_lookup).
  unfold e_take. rewrite (get_ok s m i t v t) by done. rewrite decide_True by done. cbn [bind].
  rewrite (e_at_repr s m i (t, v)); [|apply Hr|done]. cbn [bind]. eauto.
Qed.

Lemma eq_ok s m i j t v t' v' eqb : rep s m ->
  s !! i = Some (Some (t, v)) -> s !! j = Some (Some (t', v')) ->
  e_eq alts eqb i j m = Ok (bool_decide (t = t') && eqb t v v').
Proof using Halts.
  intros [Ho Ha He] Hi Hj. assert (t ∈ alts) as Ht by (by eapply Ha, held_lookup).
  assert (t' ∈ alts) as Ht' by (by eapply Ha, held_lookup).
  destruct (idx_ok t Ht) as (Hk & Hp & Hl). destruct (idx_ok t' Ht') as (Hk' & Hp' & Hl').
  unfold e_eq. rewrite (e_at_repr s m i (t, v)), (e_at_repr s m j (t', v')) by done.
  cbn [bind]. change (e_idx (enc (t, v))) with (idx t). change (e_idx (enc (t', v'))) with (idx t').
  destruct (decide (t = t')) as [<-|Hne].
  - rewrite decide_True by done. rewrite (switch_held t) by done. rewrite (pack_at_ok _ t) by done.
    cbn [bind]. rewrite !e_read_enc. cbn [bind]. by rewrite bool_decide_true.
  - rewrite bool_decide_false by done. rewrite decide_False; [done|]. intros E. rewrite E in Hp. congruence.
Qed.

(** Copies that throw. *)
Lemma copy_throws s m j t v throws : rep s m -> s !! j = Some (Some (t, v)) -> throws t v = true ->
  e_copy alts throws j m = Ok (None, EMem (e_objs m ++ [None]) (e_ctors m) (e_dtors m)).
Proof using Halts.
  intros [Ho Ha He] Hj Hthrow. assert (t ∈ alts) as Ht by (by eapply Ha, held_lookup).
  destruct (idx_ok t Ht) as (Hk & Hp & Hl).
  unfold e_copy. rewrite (e_at_repr s m j (t, v)) by done. cbn [bind e_alloc fst snd].
  cbn [enc e_idx fst]. rewrite (switch_held t) by done. unfold copy_case.
  rewrite (pack_at_ok _ t) by done. cbn [bind].
  rewrite (e_at_app_old m _ _ (enc (t, v))) by (by eapply e_at_repr). cbn [bind].
  rewrite e_read_enc. cbn [bind]. rewrite Hthrow. cbn [bind e_made e_objs e_ctors e_dtors].
  by rewrite ins_app_new.
Qed.

Lemma from_throws (m : emem V) t v throws : t ∈ alts -> throws t v = true ->
  e_from alts throws false t v m = Ok (None, EMem (e_objs m ++ [None]) (e_ctors m) (e_dtors m)).
Proof using Halts.
  intros Ht Hthrow. destruct (idx_ok t Ht) as (Hk & Hp & Hl). unfold e_from. rewrite Hk.
  cbn [e_alloc]. rewrite Hthrow. simpl. by rewrite ins_app_new.
Qed.

Lemma assign_throws s m i j t1 v1 t v throws : rep s m -> i <> j ->
  s !! i = Some (Some (t1, v1)) -> s !! j = Some (Some (t, v)) -> throws t v = true ->
  e_assign alts mvd throws quiet false i j m =
  Ok (EMem (<[i := Some (EObj (idx t) None)]> (e_objs m)) (e_ctors m) (t1 :: e_dtors m), true).
Proof using Halts.
  intros [Ho Ha He] Hij Hi Hj Hthrow.
  assert (t ∈ alts) as Ht by (by eapply Ha, held_lookup).
  assert (t1 ∈ alts) as Ht1 by (by eapply Ha, held_lookup).
  assert (i < length s) as Hlti by (by eapply lookup_lt_Some).
  assert (length (e_objs m) = length s) as Hlen by (by rewrite Ho, repr_length).
  destruct (idx_ok t Ht) as (Hk & Hp & Hl). destruct (idx_ok t1 Ht1) as (_ & Hp1 & _).
  unfold e_assign. rewrite decide_False by done.
  rewrite (e_at_repr s m i (t1, v1)) by done. cbn [bind enc e_idx fst].
  rewrite (switch_held t1) by done. unfold destroy_case. rewrite (pack_at_ok _ t1) by done. cbn [bind].
  rewrite (e_at_repr s m i (t1, v1)) by done. cbn [bind]. rewrite e_read_enc. cbn [bind]. unfold quiet.
  assert (forall o c e, e_at (EMem (<[i:=Some o]> (e_objs m)) c e) j = Ok (enc (t, v))) as Hmj.
  { intros. unfold e_at. simpl. rewrite list_lookup_insert_ne by done. rewrite Ho. unfold repr.
    by rewrite list_lookup_fmap, Hj. }
  rewrite Hmj. cbn [bind]. unfold e_at at 1. cbn [e_objs]. rewrite list_lookup_insert by lia. cbn [bind e_obj].
  unfold e_put. cbn [e_objs e_ctors e_dtors]. rewrite list_insert_insert.
  change (e_idx (enc (t, v))) with (idx t). rewrite (switch_held t) by done.
  unfold copy_case. rewrite (pack_at_ok _ t) by done. cbn [bind]. rewrite Hmj. cbn [bind].
  rewrite e_read_enc. cbn [bind]. by rewrite Hthrow.
Qed.

Lemma empty_destroy (l : list (option (eobj V))) c e i t : i < length l -> t ∈ alts ->
  e_destroy alts quiet i (EMem (<[i := Some (EObj (idx t) None)]> l) c e) = UB DeadObject.
Proof using Halts.
  intros Hi Ht. destruct (idx_ok t Ht) as (Hk & Hp & Hl).
  unfold e_destroy. unfold e_at at 1. cbn [e_objs]. rewrite list_lookup_insert by lia. cbn [bind e_idx].
  rewrite (switch_held t) by done. unfold destroy_case. rewrite (pack_at_ok _ t) by done. cbn [bind].
  unfold e_at at 1. cbn [e_objs]. by rewrite list_lookup_insert by lia.
Qed.
Lemma empty_get (l : list (option (eobj V))) c e i t : i < length l -> t ∈ alts ->
  e_get alts t i (EMem (<[i := Some (EObj (idx t) None)]> l) c e) = UB DeadObject.
Proof using Halts.
  intros Hi Ht. destruct (idx_ok t Ht) as (Hk & Hp & Hl).
  unfold e_get. unfold e_at at 1. cbn [e_objs]. rewrite list_lookup_insert by lia. cbn [bind e_idx].
  by rewrite Hk, decide_True.
Qed.

(** Assigning from an object that the destructor of the old value ends. *)
Lemma assign_owned s m i j t1 v1 throws dtor b : rep s m -> i <> j ->
  s !! i = Some (Some (t1, v1)) -> (forall m, e_at (dtor t1 v1 m) j = UB UseAfterFree) ->
  e_assign alts mvd throws dtor b i j m = UB UseAfterFree.
Proof using Halts.
  intros [Ho Ha He] Hij Hi Hd.
  assert (t1 ∈ alts) as Ht1 by (by eapply Ha, held_lookup).
  destruct (idx_ok t1 Ht1) as (_ & Hp1 & _).
  unfold e_assign. rewrite decide_False by done.
  rewrite (e_at_repr s m i (t1, v1)) by done. cbn [bind enc e_idx fst].
  rewrite (switch_held t1) by done. unfold destroy_case. rewrite (pack_at_ok _ t1) by done. cbn [bind].
  rewrite (e_at_repr s m i (t1, v1)) by done. cbn [bind]. rewrite e_read_enc. cbn [bind].
  by rewrite Hd.
Qed.

(** ** match *)
Context {W R : Type} (conv : nat -> nat -> option nat).

Definition run_branch (b : branch V W R) (v : V) (w : W) : res (R * W) :=
  match b with Typed _ f => f v w | Wild f => f w end.

Lemma match_ok s m i t v pat b w : rep s m -> s !! i = Some (Some (t, v)) ->
  select conv pat t = Some b -> e_match alts conv pat i m w = run_branch b v w.
Proof using Halts.
  intros Hr Hi Hb. assert (t ∈ alts) as Ht by (by eapply (rep_alts _ _ Hr), held_lookup).
  destruct (idx_ok t Ht) as (Hk & Hp & Hl). unfold e_match.
  rewrite (e_at_repr s m i (t, v)); [|apply Hr|done]. cbn [bind].
  change (e_idx (enc (t, v))) with (idx t). rewrite (switch_held t) by done.
  rewrite (pack_at_ok _ t) by done. cbn [bind]. rewrite (get_ok s m i t v t) by done.
  rewrite decide_True by done. cbn [bind]. rewrite Hb. by destruct b.
Qed.
End proofs.

(** ** Overload resolution *)
Section select.
Context {V W R : Type} (conv : nat -> nat -> option nat).
Implicit Types (b c : branch V W R) (bs : list (branch V W R)).

Lemma better_asym t b c : better conv t b c = true -> better conv t c b = true -> False.
Proof.
  unfold better. destruct (rank conv b t) as [x|], (rank conv c t) as [y|]; try done.
  rewrite !orb_true_iff, !andb_true_iff, !bool_decide_eq_true, !negb_true_iff.
  intros [?|[[? ?] ?]] [?|[[? ?] ?]]; try lia; congruence.
Qed.

Definition best bs t k b : bool :=
  viable conv t b && forallb (fun '(l, c) => bool_decide (l = k) || better conv t b c) (imap pair bs).

Lemma best_true bs t k b : best bs t k b = true <->
  viable conv t b = true /\ forall l c, bs !! l = Some c -> l <> k -> better conv t b c = true.
Proof.
  unfold best. rewrite andb_true_iff, forallb_forall. split; intros [Hv H]; (split; [done|]).
  - intros l c Hl Hlk. specialize (H (l, c)). cbv beta iota in H.
    rewrite bool_decide_false in H by done. apply H. apply elem_of_list_In, elem_of_lookup_imap. eauto.
  - intros [l c] Hin. apply elem_of_list_In, elem_of_lookup_imap in Hin as (l' & c' & E & Hl).
    injection E as -> ->. destruct (decide (l' = k)) as [->|Hne]; [by rewrite bool_decide_true|].
    by rewrite (H l' c' Hl Hne), orb_true_r.
Qed.

Lemma select_def bs t :
  select conv bs t = match List.filter (fun '(k, b) => best bs t k b) (imap pair bs) with
                      | (_, b) :: _ => Some b | [] => None end.
Proof. reflexivity. Qed.

Lemma select_in bs t b : select conv bs t = Some b ->
  exists k, bs !! k = Some b /\ best bs t k b = true.
Proof.
  rewrite select_def. destruct (List.filter _ _) as [|[k b'] l] eqn:E; [done|]. intros [= ->].
  assert (In (k, b) ((k, b) :: l)) as Hin by (by left). rewrite <- E in Hin.
  apply filter_In in Hin as [Hin Hb]. apply elem_of_list_In, elem_of_lookup_imap in Hin as (k' & b' & Ek & Hk).
  injection Ek as -> ->. eauto.
Qed.

Lemma select_best bs t k b : bs !! k = Some b -> best bs t k b = true -> select conv bs t = Some b.
Proof.
  intros Hk Hb. rewrite select_def.
  assert (In (k, b) (List.filter (fun '(k, b) => best bs t k b) (imap pair bs))) as Hin.
  { apply filter_In. split; [|done]. apply elem_of_list_In, elem_of_lookup_imap. eauto. }
  destruct (List.filter _ _) as [|[k' b'] l] eqn:E; [done|].
  assert (In (k', b') ((k', b') :: l)) as Hin' by (by left). rewrite <- E in Hin'.
  apply filter_In in Hin' as [Hin' Hb'].
  apply elem_of_list_In, elem_of_lookup_imap in Hin' as (k'' & b'' & Ek & Hk').
  injection Ek as -> ->. destruct (decide (k'' = k)) as [->|Hne]; [congruence|].
  apply best_true in Hb as [_ Hb]. apply best_true in Hb' as [_ Hb'].
  destruct (better_asym t b b''); [by eapply Hb|]. eapply Hb'; [done|]. congruence.
Qed.

Lemma select_typed bs t k f : (forall p, conv p t = Some 0 <-> p = t) ->
  bs !! k = Some (Typed t f) ->
  (forall l p g, bs !! l = Some (Typed p g) -> l <> k -> p <> t) ->
  select conv bs t = Some (Typed t f).
Proof.
  intros Hc Hk Hu. apply (select_best _ _ k); [done|]. apply best_true.
  assert (conv t t = Some 0) as Htt by (by apply Hc). unfold viable, better. simpl. rewrite Htt.
  split; [done|]. intros l c Hl Hlk. destruct c as [p g|g]; simpl.
  - destruct (conv p t) as [[|r]|] eqn:E; [|done|done]. exfalso. apply (Hu l p g Hl Hlk). by apply Hc.
  - done.
Qed.

Lemma select_wild bs t k f : (forall p, conv p t = Some 0 <-> p = t) ->
  bs !! k = Some (Wild f) ->
  (forall l g, bs !! l = Some (Wild g) -> l = k) ->
  (forall l g, bs !! l <> Some (Typed t g)) ->
  select conv bs t = Some (Wild f).
Proof.
  intros Hc Hk Hu Hn. apply (select_best _ _ k); [done|]. apply best_true. split; [done|].
  intros l c Hl Hlk. unfold better. destruct c as [p g|g]; simpl.
  - destruct (conv p t) as [[|r]|] eqn:E; [|done|done]. apply Hc in E as ->. by destruct (Hn l g).
  - destruct Hlk. by eapply Hu.
Qed.

Lemma select_only bs t k b : bs !! k = Some b -> viable conv t b = true ->
  (forall l c, bs !! l = Some c -> l <> k -> viable conv t c = false) ->
  select conv bs t = Some b.
Proof.
  intros Hk Hv Hu. apply (select_best _ _ k); [done|]. apply best_true. split; [done|].
  intros l c Hl Hlk. specialize (Hu l c Hl Hlk). unfold viable, better in *.
  destruct (rank conv b t); [|done]. by destruct (rank conv c t).
Qed.

Lemma select_twice bs t k l f g : (forall p, conv p t = Some 0 <-> p = t) ->
  k <> l -> bs !! k = Some (Typed t f) -> bs !! l = Some (Typed t g) -> select conv bs t = None.
Proof.
  intros Hc Hkl Hk Hl. destruct (select conv bs t) as [b|] eqn:E; [|done]. exfalso.
  apply select_in in E as (i & Hi & Hb). apply best_true in Hb as [Hv Hb].
  assert (conv t t = Some 0) as Htt by (by apply Hc).
  assert (forall h, better conv t b (Typed t h) = true -> False) as H.
  { intros h. unfold better. simpl. rewrite Htt. destruct (rank conv b t) as [[|x]|]; try done. simpl.
    rewrite andb_false_r. done. }
  destruct (decide (i = k)) as [->|Hne]; [apply (H g)|apply (H f)]; eapply Hb; eauto.
Qed.

Lemma relevant_true alts b : relevant alts conv b = true <->
  exists p f t r, b = Typed p f /\ t ∈ alts /\ conv p t = Some r.
Proof.
  destruct b as [p f|f]; simpl.
  - rewrite existsb_exists. split.
    + intros (t & Hin & H). destruct (conv p t) as [r|] eqn:E; [|done].
      exists p, f, t, r. repeat split; try done. by apply elem_of_list_In.
    + intros (p' & f' & t & r & E & Hin & Hc). injection E as <- <-. exists t.
      split; [by apply elem_of_list_In|]. by rewrite Hc.
  - split; [done|]. intros (p' & f' & t & r & E & _). done.
Qed.

Lemma check_true alts bs : pattern_check alts conv bs = true <->
  bs <> [] /\ forall k b, bs !! k = Some b ->
    relevant alts conv b = true \/ is_wild b = true /\ S k = length bs.
Proof.
  induction bs as [|b bs IH]; [simpl; split; [done|]; by intros []|].
  destruct bs as [|c bs].
  - simpl. rewrite orb_true_iff. split.
    + intros H. split; [done|]. intros [|k] b' Hb; [|done]. injection Hb as <-. tauto.
    + intros [_ H]. destruct (H 0 b eq_refl) as [?|[? _]]; tauto.
  - change (relevant alts conv b && negb (is_wild b) && pattern_check alts conv (c :: bs) = true <->
      b :: c :: bs <> [] /\ forall k b', (b :: c :: bs) !! k = Some b' ->
      relevant alts conv b' = true \/ is_wild b' = true /\ S k = length (b :: c :: bs)).
    rewrite !andb_true_iff, IH. split.
    + intros [[Hr Hw] [_ H]]. split; [done|]. intros [|k] b' Hb.
      * injection Hb as <-. by left.
      * destruct (H k b' Hb) as [?|[? Hk]]; [by left|right]. split; [done|]. simpl in *. lia.
    + intros [_ H]. destruct (H 0 b eq_refl) as [Hr|[_ Hk]]; [|simpl in Hk; lia].
      repeat split; [done| |done|].
      * destruct b; [done|]. done.
      * intros k b' Hb. destruct (H (S k) b' Hb) as [?|[? Hk]]; [by left|right].
        split; [done|]. simpl in *. lia.
Qed.
End select.
