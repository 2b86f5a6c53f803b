(** Memory buffers that live side by side. *)
From Verif Require Import Base.Cpp Base.Mem Model.FmtBuffer Spec.BufferSpec Proofs.FmtBufferProofs Proofs.PreludeProofs.
Set Default Proof Using "Type".
Local Open Scope Z_scope.

Section world.
  Context (N : nat).
  Definition at_index (bs : list (option buffer)) (i : nat) (o : buffer) : Prop := bs !! i = Some (Some o).
  Definition world (m : mem Z) (bs : list (option buffer)) (ss : list (option (list Z))) : Prop :=
    length bs = length ss /\
    (forall i, match bs !! i, ss !! i with
               | Some (Some o), Some (Some w) => holds N m o w
               | Some (Some _), _ | _, Some (Some _) => False
               | _, _ => True end) /\
    (forall i j o p c, at_index bs i o -> at_index bs j p -> owns o c -> owns p c -> i = j) /\
    (forall c, alive m c -> exists i o, at_index bs i o /\ owns o c) /\ leaks m = 0%nat.

  Lemma world_at m bs ss i w : world m bs ss -> ss !! i = Some (Some w) -> exists o, at_index bs i o /\ holds N m o w.
  Proof. intros (_ & H & _) Hi. specialize (H i). rewrite Hi in H. unfold at_index. destruct (bs !! i) as [[o|]|]; [by exists o|done..]. Qed.

  Lemma holds_same m m' o w : (forall c, owns o c -> blocks m' !! c = blocks m !! c) -> holds N m o w -> holds N m' o w.
  Proof.
    intros Hs (Hf & Hc & Hsz & Hcap & (ss & Hss & HN) & cs & Hb & Hl & Hw). split_and!; try done.
    - exists ss. unfold blk in *. rewrite Hs by (by left). done.
    - exists cs. unfold blk in *. rewrite Hs by (by right). done.
  Qed.

  (** One buffer changes. *)
  Lemma world_step m bs ss i o m' o' w' : world m bs ss -> at_index bs i o -> frame m o m' o' -> holds N m' o' w' ->
    world m' (<[i := Some o']> bs) (<[i := Some w']> ss).
  Proof.
    intros (Hlen & Hh & Hd & Ha & Hl) Hi (F1 & F2 & F3 & F4 & F5 & F6) Hw'. pose proof (lookup_lt_Some _ _ _ Hi) as Hlt.
    assert (Hother : forall j p, j <> i -> at_index bs j p -> forall c, owns p c -> (c < length (blocks m))%nat /\ ~ owns o c /\ ~ owns o' c /\ blocks m' !! c = blocks m !! c).
    { intros j p Hji Hj c Hc. specialize (Hh j). rewrite Hj in Hh. destruct (ss !! j) as [[wj|]|]; try done.
      assert (Hcl : (c < length (blocks m))%nat) by (by eapply alive_lt, holds_owned).
      assert (Hno : ~ owns o c) by (intros H; apply Hji; by eapply (Hd j i)).
      assert (Hno' : ~ owns o' c) by (intros H; destruct (F2 c H); [done|lia]). split_and!; [done..|]. by apply F1. }
    split_and!; [by rewrite !insert_length| | | |congruence].
    - intros j. destruct (decide (j = i)) as [->|Hji].
      + rewrite !list_lookup_insert by lia. done.
      + rewrite !list_lookup_insert_ne by done. specialize (Hh j). destruct (bs !! j) as [[p|]|] eqn:Ej; [|done..].
        destruct (ss !! j) as [[wj|]|]; try done. eapply holds_same; [|exact Hh]. intros c Hc. by eapply Hother.
    - intros j k p q c Hj Hk Hp Hq. unfold at_index in *. destruct (decide (j = i)) as [->|Hji], (decide (k = i)) as [->|Hki]; [done|..].
      + rewrite list_lookup_insert in Hj by lia. injection Hj as <-. rewrite list_lookup_insert_ne in Hk by done. by destruct (Hother k q Hki Hk c Hq) as (_ & _ & ? & _).
      + rewrite list_lookup_insert in Hk by lia. injection Hk as <-. rewrite list_lookup_insert_ne in Hj by done. by destruct (Hother j p Hji Hj c Hp) as (_ & _ & ? & _).
      + rewrite list_lookup_insert_ne in Hj, Hk by done. by eapply Hd.
    - intros c Hal. destruct (owns_dec o' c) as [?|Hno']; [exists i, o'; split; [by apply list_lookup_insert|done]|].
      destruct (decide (length (blocks m) <= c)%nat) as [?|Hclt]; [by destruct Hno'; apply F4|].
      destruct (owns_dec o c) as [?|Hno]; [by destruct (F3 c)|].
      destruct (Ha c) as (j & p & Hj & Hp); [by rewrite <- (alive_same m m'); [|apply F1; [lia|done..]]|].
      exists j, p. split; [|done]. unfold at_index. rewrite list_lookup_insert_ne; [done|]. intros <-. unfold at_index in *. rewrite Hi in Hj. injection Hj as <-. done.
  Qed.

  (** A new buffer. *)
  Definition empty_buffer (o : buffer) : Prop := fl o = Memory (store_of o) /\ block_of o = store_of o /\ cell_of o = 0%nat /\ size o = 0.
  Lemma world_new m bs ss st m' cap : world m bs ss -> alloc m N = (st, m') -> 0 <= cap <= Z.of_nat N ->
    world m' (bs ++ [Some (Buffer (Memory st) st 0 0 cap)]) (ss ++ [Some []]).
  Proof.
    intros (Hlen & Hh & Hd & Ha & Hl) Hal Hcap. set (o := Buffer _ _ _ _ _). pose proof (alloc_blk _ _ _ _ Hal) as Hst.
    injection Hal as <- Hm'.
    assert (Hold : forall c, (c < length (blocks m))%nat -> blocks m' !! c = blocks m !! c) by (intros c Hc; rewrite <- Hm'; by apply lookup_app_l).
    assert (Hln : length (blocks m') = S (length (blocks m))) by (rewrite <- Hm'; cbn; rewrite app_length; cbn; lia).
    assert (Hb : forall j p, at_index (bs ++ [Some o]) j p -> at_index bs j p \/ j = length bs /\ p = o).
    { intros j p Hj. unfold at_index in Hj. apply lookup_app_Some in Hj as [?|[Hge Hj]]; [by left|]. right.
      destruct (j - length bs)%nat as [|k] eqn:E; [|done]. injection Hj as <-. split; [lia|done]. }
    assert (Hlt : forall j p c, at_index bs j p -> owns p c -> (c < length (blocks m))%nat).
    { intros j p c Hj Hc. specialize (Hh j). rewrite Hj in Hh. destruct (ss !! j) as [[wj|]|]; try done. by eapply alive_lt, holds_owned. }
    split_and!; [rewrite !app_length; cbn; lia| | | |by rewrite <- Hm'].
    - intros j. destruct (decide (j < length bs)%nat) as [Hj|Hj].
      + rewrite !lookup_app_l by lia. specialize (Hh j). destruct (bs !! j) as [[p|]|] eqn:Ej; [|done..]. destruct (ss !! j) as [[wj|]|]; try done.
        eapply holds_same; [|exact Hh]. intros c Hc. apply Hold. by eapply Hlt.
      + rewrite !lookup_app_r by lia. rewrite <- Hlen. destruct (j - length bs)%nat as [|k]; [|done]. cbn.
        split_and!; try done; cbn; [lia|exists (replicate N Raw); split; [done|apply replicate_length]|].
        exists (replicate N Raw). split_and!; [done|rewrite replicate_length; lia|done].
    - intros j k p q c Hj Hk Hp Hq. destruct (Hb _ _ Hj) as [Hj'|[-> ->]], (Hb _ _ Hk) as [Hk'|[-> ->]]; [by eapply Hd|..|done].
      + specialize (Hlt _ _ _ Hj' Hp). destruct Hq as [->| ->]; cbn in Hlt; lia.
      + specialize (Hlt _ _ _ Hk' Hq). destruct Hp as [->| ->]; cbn in Hlt; lia.
    - intros c Hc. destruct (decide (c < length (blocks m))%nat) as [Hcl|?].
      + destruct (Ha c) as (j & p & Hj & Hp); [by rewrite <- (alive_same m m') by (by apply Hold)|]. exists j, p. split; [|done]. by apply lookup_app_l_Some.
      + apply alive_lt in Hc. exists (length bs), o. split; [unfold at_index; rewrite lookup_app_r, Nat.sub_diag by lia; done|]. left. cbn. lia.
  Qed.

  (** A buffer goes. *)
  Lemma world_gone m bs ss i o m' : world m bs ss -> at_index bs i o -> (forall c, ~ owns o c -> blocks m' !! c = blocks m !! c) ->
    (forall c, owns o c -> ~ alive m' c) -> leaks m' = leaks m -> world m' (<[i := None]> bs) (<[i := None]> ss).
  Proof.
    intros (Hlen & Hh & Hd & Ha & Hl) Hi Hsame Hgone Hlk. pose proof (lookup_lt_Some _ _ _ Hi) as Hlt.
    assert (Hat : forall j p, at_index (<[i := None]> bs) j p -> j <> i /\ at_index bs j p).
    { intros j p Hj. unfold at_index in *. destruct (decide (j = i)) as [->|?]; [by rewrite list_lookup_insert in Hj by lia|]. by rewrite list_lookup_insert_ne in Hj. }
    split_and!; [by rewrite !insert_length| | | |congruence].
    - intros j. destruct (decide (j = i)) as [->|Hji].
      + by rewrite !list_lookup_insert by lia.
      + rewrite !list_lookup_insert_ne by done. specialize (Hh j). destruct (bs !! j) as [[p|]|] eqn:Ej; [|done..]. destruct (ss !! j) as [[wj|]|]; try done.
        eapply holds_same; [|exact Hh]. intros c Hc. apply Hsame. intros H. apply Hji. by eapply (Hd j i).
    - intros j k p q c Hj Hk. destruct (Hat _ _ Hj), (Hat _ _ Hk). by eapply Hd.
    - intros c Hc. destruct (owns_dec o c) as [Ho|Ho]; [by destruct (Hgone c)|]. destruct (Ha c) as (j & p & Hj & Hp); [by rewrite <- (alive_same m m') by auto|].
      exists j, p. split; [|done]. unfold at_index in *. rewrite list_lookup_insert_ne; [done|]. intros <-. rewrite Hi in Hj. injection Hj as <-. done.
  Qed.

  (** A buffer passes the array that it points to on to another, which points to its own. *)
  Lemma world_pass m bs ss i j o p w : i <> j -> world m bs ss -> at_index bs i o -> block_of o = store_of o -> at_index bs j p -> block_of p <> store_of p ->
    ss !! j = Some (Some w) -> fl o = Memory (store_of o) ->
    world m (<[j := Some (set_size (set_data p (store_of p) 0 0) 0)]> (<[i := Some (set_size (set_data o (block_of p) 0 (capacity p)) (size p))]> bs))
      (<[j := Some []]> (<[i := Some w]> ss)).
  Proof.
    intros Hij (Hlen & Hh & Hd & Ha & Hl) Hi Hown Hj Hheap Hw Hfo. set (o' := set_size _ _) at 2. set (p' := set_size _ 0).
    pose proof (lookup_lt_Some _ _ _ Hi) as Hilt. pose proof (lookup_lt_Some _ _ _ Hj) as Hjlt.
    assert (Hpw : holds N m p w) by (specialize (Hh j); by rewrite Hj, Hw in Hh). assert (exists wo, holds N m o wo) as [wo How].
    { specialize (Hh i). rewrite Hi in Hh. destruct (ss !! i) as [[wi|]|]; try done. by exists wi. }
    assert (Ho' : holds N m o' w).
    { destruct Hpw as (Hf & Hc & Hs & Hcap & _ & Hcs). destruct How as (_ & _ & _ & _ & Hst & _). split_and!; done. }
    assert (Hp' : holds N m p' []).
    { destruct Hpw as (Hf & Hc & Hs & Hcap & (sp & Hsp & HN) & _). split_and!; try done; [by exists sp|]. exists sp. split_and!; [done|cbn; lia|done]. }
    set (bs' := <[j := Some p']> (<[i := Some o']> bs)).
    assert (Hcases : forall k q, at_index bs' k q -> k = j /\ q = p' \/ k = i /\ q = o' \/ k <> i /\ k <> j /\ at_index bs k q).
    { intros k q Hk. unfold bs', at_index in *. destruct (decide (k = j)) as [->|Hkj]; [rewrite list_lookup_insert in Hk by (rewrite insert_length; lia); left; by injection Hk|].
      rewrite list_lookup_insert_ne in Hk by done. destruct (decide (k = i)) as [->|Hki]; [rewrite list_lookup_insert in Hk by lia; right; left; by injection Hk|].
      rewrite list_lookup_insert_ne in Hk by done. auto. }
    assert (Hoo : forall c, owns o' c -> owns o c \/ c = block_of p) by (intros c [->| ->]; [left; by left|by right]).
    assert (Hpp : forall c, owns p' c -> c = store_of p) by (intros c [->| ->]; done).
    assert (Hdis : forall c, owns o' c -> owns p' c -> False).
    { intros c Ho Hp. apply Hpp in Hp. destruct (Hoo c Ho) as [H|H]; [|congruence]. apply Hij. eapply (Hd i j); [done..| |]; [exact H|]. left. done. }
    assert (Hdis' : forall k q c, k <> i -> k <> j -> at_index bs k q -> owns q c -> ~ owns o' c /\ ~ owns p' c).
    { intros k q c Hki Hkj Hk Hc. split.
      - intros H. destruct (Hoo c H) as [H'| ->]; [apply Hki; by eapply (Hd k i)|]. apply Hkj. eapply (Hd k j); [done..|]. by right.
      - intros ->%Hpp. apply Hkj. eapply (Hd k j); [done..|]. by left. }
    split_and!; [unfold bs'; by rewrite !insert_length| | | |done].
    - intros k. unfold bs'. destruct (decide (k = j)) as [->|Hkj]; [by rewrite !list_lookup_insert by (rewrite insert_length; lia)|].
      rewrite !(list_lookup_insert_ne _ j k) by done. destruct (decide (k = i)) as [->|Hki]; [by rewrite !list_lookup_insert by lia|].
      rewrite !list_lookup_insert_ne by done. apply Hh.
    - intros k l q r c Hk Hl' Hq Hr. destruct (Hcases _ _ Hk) as [[-> ->]|[[-> ->]|(? & ? & Hk')]], (Hcases _ _ Hl') as [[-> ->]|[[-> ->]|(? & ? & Hl'')]]; try done.
      + by destruct (Hdis c).
      + by destruct (Hdis' l r c) as [_ []].
      + by destruct (Hdis c).
      + by destruct (Hdis' l r c) as [[] _].
      + by destruct (Hdis' k q c) as [_ []].
      + by destruct (Hdis' k q c) as [[] _].
      + by eapply Hd.
    - intros c Hc. destruct (Ha c Hc) as (k & q & Hk & Hq).
      assert (Hbj : at_index bs' j p') by (unfold bs', at_index; rewrite list_lookup_insert by (rewrite insert_length; lia); done).
      assert (Hbi : at_index bs' i o') by (unfold bs', at_index; rewrite list_lookup_insert_ne, list_lookup_insert by (done || lia); done).
      destruct (decide (k = i)) as [->|Hki].
      { unfold at_index in Hk. rewrite Hi in Hk. injection Hk as <-. exists i, o'. split; [done|]. left. cbn. destruct Hq as [->| ->]; done. }
      destruct (decide (k = j)) as [->|Hkj].
      { unfold at_index in Hk. rewrite Hj in Hk. injection Hk as <-. destruct Hq as [->| ->]; [exists j, p'; split; [done|]; by left|]. exists i, o'. split; [done|]. by right. }
      exists k, q. split; [|done]. unfold bs', at_index. by rewrite !list_lookup_insert_ne.
  Qed.

  (** ** The actions *)
  Lemma holds_fun m o w : holds N m o w -> block_of o = store_of o -> capacity o <= Z.of_nat N.
  Proof. intros (_ & _ & _ & _ & (ss & Hss & HN) & cs & Hcs & Hl & _) E. rewrite E in Hcs. unfold blk in *. rewrite Hss in Hcs. injection Hcs as <-. lia. Qed.
  Lemma move_heap m o p st w : fl o = Memory st -> holds N m p w -> block_of p <> store_of p ->
    move_buffer m o p = Ok (m, set_size (set_data o (block_of p) 0 (capacity p)) (size p), set_size (set_data p (store_of p) 0 0) 0).
  Proof.
    intros Ho (Hf & Hc & Hs & Hcap & _) Hne. unfold move_buffer. rewrite Ho, Hf. rewrite decide_False by done. cbn [bind].
    unfold try_resize, try_reserve. cbn [capacity set_data]. rewrite decide_False by lia. cbn [bind capacity set_data]. rewrite decide_True by done. cbn [bind]. by rewrite Hc.
  Qed.
  Lemma move_inline m o p st ss w : fl o = Memory st -> blk m st ss -> length ss = N -> holds N m p w -> block_of p = store_of p -> st <> store_of p ->
    move_buffer m o p = Ok (upd m st (put_at 0 w ss), set_size (set_data o st 0 (capacity p)) (size p), p).
  Proof.
    intros Ho Hst HN Hh Hin Hne. pose proof (holds_fun _ _ _ Hh Hin) as HcN. destruct Hh as (Hf & Hc & Hs & Hcap & _ & cs & Hcs & Hlen & Hw).
    unfold move_buffer. rewrite Ho, Hf. rewrite decide_True by done. rewrite Hs, Nat2Z.id.
    rewrite (copy_in_ok m st ss 0 w); [|done|lia|].
    - cbn [bind]. unfold try_resize, try_reserve. cbn [capacity set_data]. rewrite decide_False by lia. cbn [bind capacity set_data]. rewrite decide_True by lia. done.
    - intros k c Hk. unfold from_memory. eapply read_ok; [apply blk_upd_ne; [|rewrite <- Hin; exact Hcs]; done|]. cbn.
      assert (H : take (length w) cs !! k = Some (Live c)) by (by rewrite Hw, list_lookup_fmap, Hk). by apply lookup_take_Some in H as [? _].
  Qed.

  Lemma frame_owns m o m' o' o'' : (forall c, owns o' c <-> owns o'' c) -> frame m o m' o' -> frame m o m' o''.
  Proof.
    intros E (F1 & F2 & F3 & F4 & F5 & F6). split_and!; [..|done|done].
    - intros c Hc H H'. apply F1; [done..|]. by rewrite E.
    - intros c Hc. apply F2. by rewrite E.
    - intros c Hc H'. apply F3; [done|]. by rewrite E.
    - intros c Hc H'. rewrite <- E. by apply F4.
  Qed.
  Lemma world_move m bs ss i j o p w : i <> j -> world m bs ss -> at_index bs i o -> block_of o = store_of o -> at_index bs j p ->
    ss !! j = Some (Some w) ->
    wp (move_buffer m o p) (fun '(m', o', p') => exists rest, (rest = w \/ rest = []) /\ world m' (<[j := Some p']> (<[i := Some o']> bs)) (<[j := Some rest]> (<[i := Some w]> ss))).
  Proof.
    intros Hij Hw Hi Hown Hj Hsj. pose proof Hw as (Hlen & Hh & Hd & _). pose proof (Hh j) as Hpw. rewrite Hj, Hsj in Hpw.
    assert (exists wo, holds N m o wo) as [wo How]. { specialize (Hh i). rewrite Hi in Hh. destruct (ss !! i) as [[wi|]|]; try done. by exists wi. }
    pose proof How as (Hfo & _ & _ & _ & (so & Hso & HNo) & _).
    destruct (decide (block_of p = store_of p)) as [Hin|Hne].
    - assert (Hst : store_of o <> store_of p). { intros E. apply Hij. eapply (Hd i j o p (store_of o)); [done..|by left|by left]. }
      erewrite move_inline by done. apply wp_ok. exists w. split; [by left|].
      assert (Hbj : at_index (<[i := Some (set_size (set_data o (store_of o) 0 (capacity p)) (size p))]> bs) j p) by (unfold at_index; by rewrite list_lookup_insert_ne).
      rewrite (list_insert_id _ j (Some p)) by exact Hbj. rewrite (list_insert_id _ j (Some w)) by (by rewrite list_lookup_insert_ne).
      pose proof (holds_fun _ _ _ Hpw Hin) as HcN. destruct Hpw as (Hf & Hc & Hs & Hcap & _).
      eapply world_step; [exact Hw|exact Hi| |].
      + pose proof (upd_owned N m o wo (put_at 0 w so) 0 How) as F. rewrite Hown in F. eapply frame_owns; [|exact F].
        intros c. unfold owns. cbn [block_of set_size set_data]. rewrite Hown. done.
      + assert (Hput : length (put_at 0 w so) = length so) by (apply put_at_length; lia).
        split_and!; try done; [exists (put_at 0 w so); split; [by eapply blk_upd|congruence]|].
        exists (put_at 0 w so). split_and!; [by eapply blk_upd|cbn; lia|].
        apply (take_put_at 0 w so). lia.
    - erewrite move_heap by done. apply wp_ok. exists []. split; [by right|]. by apply world_pass.
  Qed.

  (** What a buffer lets go of when it is assigned to. *)
  Lemma deallocate_ok m o w : holds N m o w ->
    wp (deallocate m o) (fun m' => let o' := Buffer (fl o) (store_of o) 0 0 0 in frame m o m' o' /\ holds N m' o' []).
  Proof.
    intros Hh. pose proof Hh as (Hf & Hc & Hs & Hcap & (ss & Hst & HN) & cs & Hb & Hlen & Hw). unfold deallocate. rewrite Hf.
    destruct (decide (block_of o = store_of o)) as [E|E].
    - apply wp_ok. cbn zeta. split.
      + eapply frame_owns; [|apply frame_refl]. intros c. unfold owns. cbn [block_of]. rewrite E. done.
      + split_and!; try done; [by exists ss|]. exists ss. split_and!; [done|cbn; lia|done].
    - unfold free. rewrite Hb. apply wp_ok. cbn zeta.
      assert (Hst' : blk (Mem (<[block_of o := None]> (blocks m)) (leaks m + 0)) (store_of o) ss) by (unfold blk; cbn; by rewrite list_lookup_insert_ne).
      split.
      + pose proof (lookup_lt_Some _ _ _ Hb) as Hlt.
        assert (Hsto : store_of (Buffer (Memory (store_of o)) (store_of o) 0 0 0) = store_of o) by done.
        unfold frame, owns. cbn [block_of blocks leaks]. rewrite Hsto. split_and!; cbn; rewrite ?insert_length; [..|done|lia].
        * intros c _ Hc' _. apply list_lookup_insert_ne. intros <-. apply Hc'. by right.
        * intros c [->| ->]; left; by left.
        * intros c [->| ->] Hno; [destruct Hno; by left|]. intros [ds Hds]. unfold blk in Hds. cbn in Hds. by rewrite list_lookup_insert in Hds by done.
        * intros c Hge [ds Hds]. apply blk_lt in Hds. cbn in Hds. rewrite insert_length in Hds. lia.
      + split_and!; try done; [by exists ss|]. exists ss. split_and!; [done|cbn; lia|done].
  Qed.

  Lemma destroy_ok m o w : holds N m o w ->
    wp (destroy_buffer m o) (fun m' => (forall c, ~ owns o c -> blocks m' !! c = blocks m !! c) /\ (forall c, owns o c -> ~ alive m' c) /\ leaks m' = leaks m /\ length (blocks m') = length (blocks m)).
  Proof.
    intros Hh. pose proof Hh as (Hf & Hc & Hs & Hcap & (ss & Hst & HN) & cs & Hb & Hlen & Hw). unfold destroy_buffer, deallocate. rewrite Hf.
    assert (Hfin : forall m1, (forall c, ~ owns o c -> blocks m1 !! c = blocks m !! c) -> (block_of o <> store_of o -> ~ alive m1 (block_of o)) -> blk m1 (store_of o) ss -> leaks m1 = leaks m -> length (blocks m1) = length (blocks m) ->
      wp (free char_type m1 (store_of o)) (fun m' => (forall c, ~ owns o c -> blocks m' !! c = blocks m !! c) /\ (forall c, owns o c -> ~ alive m' c) /\ leaks m' = leaks m /\ length (blocks m') = length (blocks m))).
    { intros m1 Hs1 Hd1 Hb1 Hl1 Hn1. unfold free. rewrite Hb1. apply wp_ok. cbn. pose proof (blk_lt _ _ _ Hb1) as Hlt. split_and!; [..|lia|by rewrite insert_length].
      - intros c Hno. rewrite list_lookup_insert_ne; [by apply Hs1|]. intros <-. apply Hno. by left.
      - intros c Ho [ds Hds]. unfold blk in Hds. cbn in Hds. destruct (decide (c = store_of o)) as [->|Hne]; [by rewrite list_lookup_insert in Hds|].
        rewrite list_lookup_insert_ne in Hds by done. destruct Ho as [->| ->]; [done|]. apply Hd1; [done|]. by exists ds. }
    destruct (decide (block_of o = store_of o)) as [E|E].
    - cbn [bind]. by apply Hfin.
    - unfold free at 1. rewrite Hb. cbn [bind]. pose proof (blk_lt _ _ _ Hb) as Hlt. apply Hfin; cbn; [..|lia|by rewrite insert_length].
      + intros c Hno. apply list_lookup_insert_ne. intros <-. apply Hno. by right.
      + intros _ [ds Hds]. unfold blk in Hds. cbn in Hds. by rewrite list_lookup_insert in Hds.
      + unfold blk. cbn. by rewrite list_lookup_insert_ne.
  Qed.


  Definition alive_of (ss : list (option (list Z))) : list bool := (fun s => match s with Some _ => true | None => false end) <$> ss.
  Lemma alive_of_true ss i : alive_of ss !! i = Some true -> exists w, ss !! i = Some (Some w).
  Proof. unfold alive_of. rewrite list_lookup_fmap. destruct (ss !! i) as [[w|]|]; try done. by exists w. Qed.
  Lemma alive_of_insert ss i w w' : ss !! i = Some (Some w) -> alive_of (<[i := Some w']> ss) = alive_of ss.
  Proof. intros H. unfold alive_of. rewrite list_fmap_insert. apply list_insert_id. by rewrite list_lookup_fmap, H. Qed.
  Lemma does_alive ss a ss' : does ss a ss' -> alive_of ss' = next_alive (alive_of ss) a.
  Proof.
    intros []; cbn [next_alive]; try (by eapply alive_of_insert).
    - unfold alive_of. by rewrite fmap_app.
    - unfold alive_of. rewrite fmap_app. f_equal. by eapply alive_of_insert.
    - erewrite alive_of_insert; [by eapply alive_of_insert|]. by rewrite list_lookup_insert_ne.
    - unfold alive_of. by rewrite list_fmap_insert.
  Qed.

  Lemma world_act m bs ss a : world m bs ss -> names_alive (alive_of ss) a ->
    wp (act N (m, bs) a) (fun '(m', bs') => exists ss', does ss a ss' /\ world m' bs' ss').
  Proof.
    intros Hw Ha.
    assert (Hget : forall i w, ss !! i = Some (Some w) -> exists o, get_buffer bs i = Ok o /\ at_index bs i o /\ holds N m o w).
    { intros i w Hi. destruct (world_at m bs ss i w Hw Hi) as (o & Ho & ?). exists o. unfold get_buffer. rewrite Ho. done. }
    assert (Hlen : length bs = length ss) by apply Hw.
    destruct a as [|i ws|i|i n|i|i j|i]; cbn [act names_alive] in *.
    - unfold memory_buffer. destruct (alloc m N) as [st m'] eqn:E. apply wp_ok. eexists. split; [constructor|]. eapply world_new; [done..|lia].
    - apply alive_of_true in Ha as [w Hi]. destruct (Hget i w Hi) as (o & -> & Ho & Hh). cbn [bind]. apply wp_bind.
      eapply wp_mono; [by apply memory_writes|]. intros [m' o'] [Hh' Hf]. apply wp_ok. eexists. split; [by constructor|]. by eapply world_step.
    - apply alive_of_true in Ha as [w Hi]. destruct (Hget i w Hi) as (o & -> & Ho & Hh). cbn [bind]. apply wp_ok.
      eexists. split; [by econstructor|]. eapply world_step; [done..|apply frame_owns with o; [done|apply frame_refl]|].
      destruct Hh as (Hf & Hc & Hs & Hcap & Hst & cs & Hb & Hl & Ht). split_and!; try done; [cbn; lia|]. by exists cs.
    - apply alive_of_true in Ha as [w Hi]. destruct (Hget i w Hi) as (o & -> & Ho & Hh). cbn [bind].
      assert (Hsz : size o = Z.of_nat (length w)) by apply Hh. destruct (decide (0 <= n <= size o)) as [Hn|Hn].
      + assert (Hcap : size o <= capacity o) by apply Hh. unfold try_resize, try_reserve. rewrite decide_False by lia. cbn [bind]. rewrite decide_True by lia. cbn [bind].
        apply wp_ok. eexists. split; [by econstructor|]. rewrite decide_True by lia. eapply world_step; [done..|apply frame_owns with o; [done|apply frame_refl]|].
        destruct Hh as (Hf & Hc & Hs & _ & Hst & cs & Hb & Hl & Ht). split_and!; try done; cbn; [rewrite take_length; lia|lia|]. exists cs. split_and!; try done.
        rewrite take_length, fmap_take, <- Ht, take_take. f_equal; lia.
      + apply wp_ok. eexists. split; [by econstructor|]. destruct (decide (0 <= n)); [rewrite take_ge by lia|]; rewrite list_insert_id; done.
    - apply alive_of_true in Ha as [w Hi]. destruct (Hget i w Hi) as (p & -> & Hp & Hh). cbn [bind]. unfold move_construct.
      destruct (alloc m N) as [st m'] eqn:E. pose proof (world_new m bs ss st m' 0 Hw E ltac:(lia)) as Hw'. pose proof (lookup_lt_Some _ _ _ Hp) as Hlt.
      apply wp_bind. eapply wp_mono; [eapply (world_move m' _ _ (length bs) i _ p w); [lia|exact Hw'|unfold at_index; rewrite lookup_app_r, Nat.sub_diag by lia; done|done| |]|].
      + unfold at_index. by rewrite lookup_app_l.
      + by rewrite lookup_app_l by lia.
      + intros [[m'' o'] p'] (rest & Hrest & Hw''). apply wp_ok. eexists. split; [by econstructor|].
        rewrite (insert_app_r_alt bs), Nat.sub_diag in Hw'' by lia. rewrite Hlen in Hw'' . rewrite (insert_app_r_alt ss), Nat.sub_diag in Hw'' by lia.
        cbn [insert list_insert] in Hw''.
        rewrite !insert_app_l in Hw'' by lia. done.
    - destruct Ha as (Hij & [t Hi]%alive_of_true & [w Hj]%alive_of_true). destruct (Hget i t Hi) as (o & -> & Ho & Hh). destruct (Hget j w Hj) as (p & -> & Hp & Hhp). cbn [bind].
      unfold move_assign. rewrite PreludeProofs.bind_assoc. apply wp_bind. eapply wp_mono; [by eapply deallocate_ok|]. cbn zeta. intros m' [Hf Hh'].
      pose proof (world_step _ _ _ _ _ _ _ _ Hw Ho Hf Hh') as Hw'. set (o1 := Buffer _ _ _ _ _) in *.
      assert (Heq : move_buffer m' o p = move_buffer m' o1 p).
      { assert (Hhp' : holds N m' p w). { destruct Hw' as (_ & H & _). specialize (H j). rewrite !list_lookup_insert_ne, Hp, Hj in H by done. done. }
        pose proof Hh' as (Hfo & _ & _ & _ & (so & Hso & HNo) & _). destruct (decide (block_of p = store_of p)) as [Hin|Hne].
        - assert (store_of o1 <> store_of p). { intros E. destruct Hw as (_ & _ & Hd & _). apply Hij. eapply (Hd i j o p (store_of p)); [done..|by left|by left]. }
          erewrite (move_inline m' o p), (move_inline m' o1 p) by done. done.
        - erewrite (move_heap m' o p), (move_heap m' o1 p) by done. done. }
      rewrite Heq. apply wp_bind. eapply wp_mono; [eapply (world_move m' _ _ i j o1 p w); [done|exact Hw'| |done| |]|].
      + apply list_lookup_insert. by eapply lookup_lt_Some.
      + unfold at_index. by rewrite list_lookup_insert_ne.
      + by rewrite list_lookup_insert_ne.
      + intros [[m'' o'] p'] (rest & Hrest & Hw''). apply wp_ok. rewrite !list_insert_insert in Hw''. eexists. split; [by econstructor|done].
    - apply alive_of_true in Ha as [w Hi]. destruct (Hget i w Hi) as (o & -> & Ho & Hh). cbn [bind]. apply wp_bind.
      eapply wp_mono; [by eapply destroy_ok|]. intros m' (H1 & H2 & H3 & _). apply wp_ok. eexists. split; [by econstructor|]. by eapply world_gone.
  Qed.

  Lemma world_acts m bs ss l : world m bs ss -> well_used (alive_of ss) l ->
    wp (act_all N (m, bs) l) (fun '(m', bs') => exists ss', does_all ss l ss' /\ world m' bs' ss').
  Proof.
    revert m bs ss. induction l as [|a l IH]; intros m bs ss Hw Hu; cbn [act_all well_used] in *.
    - apply wp_ok. exists ss. split; [constructor|done].
    - destruct Hu as [Ha Hu]. apply wp_bind. eapply wp_mono; [by apply world_act|]. intros [m' bs'] (ss' & Hd & Hw').
      eapply wp_mono; [apply IH; [exact Hw'|by erewrite does_alive]|]. intros [m'' bs''] (ss'' & Hd' & Hw''). exists ss''. split; [by econstructor|done].
  Qed.
  Lemma world_start : world mem0 [] [].
  Proof. split_and!; try done. intros c [cs H]. done. Qed.

  Lemma contents_ok m o w : holds N m o w -> contents m o = Ok w.
  Proof.
    intros (Hf & Hc & Hs & Hcap & _ & cs & Hb & Hl & Hw). unfold contents. rewrite Hc, Hs, Nat2Z.id. apply (read_chars_ok m _ cs); [done|].
    intros k c Hk. cbn. assert (H : take (length w) cs !! k = Some (Live c)) by (by rewrite Hw, list_lookup_fmap, Hk). by apply lookup_take_Some in H as [? _].
  Qed.
End world.
