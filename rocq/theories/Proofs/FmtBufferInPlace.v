(** Buffers whose text fits into their storage keep it (Model/FmtBuffer.v). *)
From Verif Require Import Base.Cpp Base.Mem Model.FmtBuffer Spec.BufferSpec Proofs.FmtBufferProofs.
Local Open Scope Z_scope.
Set Default Proof Using "Type".

Lemma assign_blocks m b i c m' : assign char_type m b i c = Ok m' -> length (blocks m') = length (blocks m) /\ leaks m' = leaks m.
Proof.
  unfold assign, with_block. intros H. repeat (case_match; try done); injection H as <-; cbn; by rewrite ?insert_length.
Qed.
Lemma copy_in_blocks m b i n src m' : copy_in m b i n src = Ok m' -> length (blocks m') = length (blocks m) /\ leaks m' = leaks m.
Proof.
  unfold copy_in. generalize 0%nat as k. revert m. induction n as [|n IH]; intros m k H; cbn in H; [by injection H as <-|].
  destruct (src m k) as [c| | |]; try done. cbn in H. destruct (assign char_type m b (i + k) c) as [m1| | |] eqn:Ha; try done. cbn in H.
  destruct (IH _ _ H) as [-> ->]. by eapply assign_blocks.
Qed.
(** The same storage, and [n] chars in it. *)
Definition stays (m : mem Z) (o : buffer) (n : Z) (r : mem Z * buffer) : Prop :=
  snd r = set_size o n /\ length (blocks (fst r)) = length (blocks m) /\ leaks (fst r) = leaks m.
Lemma push_stays m o src r : size o + 1 <= capacity o -> push_back m o src = Ok r -> stays m o (size o + 1) r.
Proof.
  intros Hc. unfold push_back, try_reserve. rewrite decide_False by lia. cbn [bind]. destruct (src m 0%nat) as [c| | |]; try done. cbn [bind].
  destruct (assign _ _ _ _ _) as [m1| | |] eqn:Ha; try done. cbn. intros [= <-]. split; [done|]. by eapply assign_blocks.
Qed.
Lemma append_stays m o n src r : size o + Z.of_nat n <= capacity o -> append m o n src = Ok r -> stays m o (size o + Z.of_nat n) r.
Proof.
  intros Hc. unfold append. cbn [loop]. unfold append_step at 1. case_decide as H0.
  - cbn. intros [= <-]. split; [|done]. destruct o. cbn in *. unfold set_size. cbn. f_equal. lia.
  - unfold try_reserve. rewrite decide_False by lia. cbn [bind]. rewrite decide_False by lia. rewrite Z.sub_0_r.
    destruct (copy_in _ _ _ _ _) as [m1| | |] eqn:Hcp; try done. cbn [bind]. unfold append_step at 1. rewrite decide_True by lia. cbn [bind]. intros [= <-].
    split; [done|]. by eapply copy_in_blocks.
Qed.
Lemma direct_stays m o cs r : 0 <= size o -> size o + Z.of_nat (length cs) <= capacity o -> write_direct m o cs = Ok r -> stays m o (size o + Z.of_nat (length cs)) r.
Proof.
  intros H0 Hc. unfold write_direct, to_pointer. rewrite decide_False by lia. unfold try_resize, try_reserve. rewrite decide_False by lia. cbn [bind].
  rewrite decide_True by lia. cbn [bind]. destruct (copy_in _ _ _ _ _) as [m1| | |] eqn:Hcp; try done. cbn. intros [= <-]. split; [done|]. by eapply copy_in_blocks.
Qed.
Lemma write_stays m o w r : 0 <= size o -> size o + Z.of_nat (asks w) <= capacity o -> run_write m o w = Ok r -> stays m o (size o + Z.of_nat (length (write_text w))) r.
Proof.
  intros H0 Hc. destruct w as [c|cs|cs|n]; cbn [run_write asks write_text] in *; [by apply push_stays|by apply append_stays|by apply direct_stays|].
  unfold reserve, try_reserve. rewrite decide_False by lia. intros [= <-]. split; [|done]. destruct o. cbn. unfold set_size. cbn. f_equal. lia.
Qed.
Lemma writes_stay m o t ws r : size o = Z.of_nat (length t) ->
  (forall before w after, ws = before ++ w :: after -> Z.of_nat (length t + length (writes_text before) + asks w) <= capacity o) ->
  run_writes m o ws = Ok r -> stays m o (Z.of_nat (length (t ++ writes_text ws))) r.
Proof.
  revert m o t. induction ws as [|w ws IH]; intros m o t Hs Hfit H; cbn [run_writes] in H.
  { injection H as <-. split; [|done]. cbn. rewrite app_nil_r, <- Hs. by destruct o. }
  destruct (run_write m o w) as [[m1 o1]| | |] eqn:Hw; try done. cbn [bind] in H.
  pose proof (Hfit [] w ws eq_refl) as Hf. cbn in Hf. apply write_stays in Hw as (Ho & Hb & Hl); [|lia|lia]. cbn in Ho, Hb, Hl. subst o1.
  apply (IH _ _ (t ++ write_text w)) in H as (Ho & Hb' & Hl').
  - split; [|split; congruence]. rewrite Ho. unfold set_size. cbn. by rewrite <- app_assoc.
  - cbn. rewrite app_length. lia.
  - intros before w' after ->. specialize (Hfit (w :: before) w' after eq_refl). unfold writes_text in *. cbn in *. rewrite !app_length in *. lia.
Qed.

(** ** A text that does not fit leaves the array for good *)
Section away.
  Context (store : nat).
  Definition here (r : mem Z * buffer) : Prop := fl (snd r) = Memory store /\ (store < length (blocks (fst r)))%nat.
  Definition away (r : mem Z * buffer) : Prop := here r /\ block_of (snd r) <> store.
  Lemma free_blocks m b m' : free char_type m b = Ok m' -> length (blocks m') = length (blocks m).
  Proof. unfold free, with_block. intros H. repeat (case_match; try done); injection H as <-; cbn; by rewrite ?insert_length. Qed.
  Lemma grow_away m o n r : here (m, o) -> grow m o n = Ok r -> away r.
  Proof.
    intros [Hf Hl]. cbn in Hf, Hl. unfold grow. rewrite Hf. cbn [alloc]. destruct (copy_in _ _ _ _ _) as [m1| | |] eqn:Hc; try done. cbn [bind].
    apply copy_in_blocks in Hc as [Hc _]. cbn in Hc. rewrite app_length in Hc. cbn in Hc. case_decide as Hs.
    - cbn. intros [= <-]. split; [split; [done|cbn; lia]|]. cbn. lia.
    - destruct (free char_type m1 (block_of o)) as [m2| | |] eqn:Hfr; try done. cbn. intros [= <-]. apply free_blocks in Hfr. split; [split; [done|cbn; lia]|]. cbn. lia.
  Qed.
  Lemma reserve_away m o n r : here (m, o) -> try_reserve m o n = Ok r -> here r /\ (away (m, o) \/ n > capacity o -> away r).
  Proof.
    intros Hh. unfold try_reserve. case_decide as Hn.
    - intros Hg. apply (grow_away _ _ _ _ Hh) in Hg. split; [apply Hg|done].
    - intros [= <-]. split; [done|]. by intros [?|?].
  Qed.
  Lemma away_set m m' o n : length (blocks m') = length (blocks m) -> (here (m, o) -> here (m', set_size o n)) /\ (away (m, o) -> away (m', set_size o n)).
  Proof. intros H. unfold away, here. cbn. rewrite H. tauto. Qed.
  Lemma push_away m o src r : here (m, o) -> push_back m o src = Ok r -> here r /\ (away (m, o) \/ size o + 1 > capacity o -> away r).
  Proof.
    intros Hh. unfold push_back. destruct (try_reserve m o (size o + 1)) as [[m1 o1]| | |] eqn:Hr; try done. cbn [bind].
    destruct (reserve_away _ _ _ _ Hh Hr) as [Hh1 Ha1]. destruct (src m1 0%nat) as [c| | |]; try done. cbn [bind].
    destruct (assign _ _ _ _ _) as [m2| | |] eqn:Ha; try done. cbn. intros [= <-]. apply assign_blocks in Ha as [Ha _].
    destruct (away_set m1 m2 o1 (size o1 + 1) Ha) as [H1 H2]. tauto.
  Qed.
  Lemma append_away fuel src n m o from r : here (m, o) -> loop fuel (append_step src n) (m, o, from) = Ok r ->
    here r /\ (away (m, o) \/ from < n /\ size o + (n - from) > capacity o -> away r).
  Proof.
    revert m o from. induction fuel as [|fuel IH]; intros m o from Hh; cbn [loop]; [done|]. unfold append_step at 1. case_decide as Hn.
    - cbn. intros [= <-]. split; [done|]. intros [?|?]; [done|lia].
    - destruct (try_reserve m o (size o + (n - from))) as [[m1 o1]| | |] eqn:Hr; try done. cbn [bind].
      destruct (reserve_away _ _ _ _ Hh Hr) as [Hh1 Ha1]. destruct (copy_in _ _ _ _ _) as [m2| | |] eqn:Hc; try done. cbn [bind].
      apply copy_in_blocks in Hc as [Hc _]. match goal with |- context [set_size o1 ?k] => destruct (away_set m1 m2 o1 k Hc) as [H1 H2] end.
      intros Hl. apply IH in Hl as [Hl1 Hl2]; [|by apply H1]. split; [done|]. intros [Ha|[_ Hb]]; apply Hl2; left; apply H2, Ha1; [by left|by right].
  Qed.
  Lemma write_away m o w r : here (m, o) -> run_write m o w = Ok r ->
    here r /\ (away (m, o) -> away r) /\ (size o <= capacity o -> size o + Z.of_nat (asks w) > capacity o -> away r).
  Proof.
    intros Hh. destruct w as [c|cs|cs|n]; cbn [run_write asks write_text] in *.
    - intros H. apply push_away in H as [H1 H2]; [|done]. auto.
    - intros H. apply append_away in H as [H1 H2]; [|done]. split; [done|]. split; [auto|]. intros ? Ha. apply H2. right. lia.
    - unfold write_direct, to_pointer. case_decide as Hc.
      + cbn [bind]. intros H. apply append_away in H as [H1 H2]; [|done]. split; [done|]. split; [auto|]. intros ? Ha. apply H2. right. lia.
      + unfold try_resize. destruct (try_reserve m o _) as [[m1 o1]| | |] eqn:Hr; try done. cbn [bind].
        destruct (reserve_away _ _ _ _ Hh Hr) as [Hh1 Ha1]. destruct (copy_in _ _ _ _ _) as [m2| | |] eqn:Hcp; try done. cbn [bind]. intros [= <-].
        apply copy_in_blocks in Hcp as [Hcp _]. match goal with |- context [set_size o1 ?k] => destruct (away_set m1 m2 o1 k Hcp) as [H1 H2] end.
        split; [by apply H1|]. split; [auto|]. intros ? Ha. lia.
    - intros H. apply reserve_away in H as [H1 H2]; [|done]. auto.
  Qed.
  Lemma writes_away m o ws r : away (m, o) -> run_writes m o ws = Ok r -> away r.
  Proof.
    revert m o. induction ws as [|w ws IH]; intros m o Ha H; cbn [run_writes] in H; [by injection H as <-|].
    destruct (run_write m o w) as [[m1 o1]| | |] eqn:Hw; try done. cbn [bind] in H. apply (write_away _ _ _ _ (proj1 Ha)) in Hw as (_ & Hw & _). eauto.
  Qed.
  Lemma writes_fit m o (t : list Z) ws r : here (m, o) -> size o = Z.of_nat (length t) -> size o <= capacity o -> run_writes m o ws = Ok r ->
    away r \/ forall before w after, ws = before ++ w :: after -> Z.of_nat (length t + length (writes_text before) + asks w) <= capacity o.
  Proof.
    revert m o t. induction ws as [|w ws IH]; intros m o t Hh Hs Hc H; cbn [run_writes] in H; [right; by intros [] ? ?|].
    destruct (run_write m o w) as [[m1 o1]| | |] eqn:Hw; try done. cbn [bind] in H. pose proof (write_away _ _ _ _ Hh Hw) as (Hh1 & _ & Ha).
    destruct (decide (size o + Z.of_nat (asks w) <= capacity o)) as [Hfit|Hfit]; [|left; eapply writes_away; [|exact H]; apply Ha; lia].
    assert (H0 : 0 <= size o) by lia. pose proof (write_stays _ _ _ _ H0 Hfit Hw) as (Ho & _). cbn in Ho. subst o1.
    assert (Hle : (length (write_text w) <= asks w)%nat) by (destruct w; cbn; lia).
    apply (IH _ _ (t ++ write_text w) Hh1) in H as [Hr|Hr]; [by left| |cbn; rewrite app_length; lia|cbn; lia]. right.
    intros [|w' before] w1 after Hws; injection Hws as -> Hws; [cbn; lia|]. specialize (Hr before w1 after Hws). unfold writes_text in *. cbn in *. rewrite !app_length in *. lia.
  Qed.
End away.
