(** Parsing a format string reads nothing outside it, ends, and reaches only specs that every value of
    the type can be written with. *)
From Verif Require Import Base.Cpp Model.Numeric Model.FmtInt Model.Utf8 Model.Escape Model.Dragonbox Model.FloatLayout Model.FloatDigits Model.Format.
From Verif Require Import Spec.FormatSpec Spec.Utf8Spec Spec.EscapeSpec Spec.FieldSpec.
From Verif Require Import Proofs.FmtIntProofs Proofs.Utf8Decode Proofs.Utf8Proofs Proofs.EscapeProofs Proofs.FormatWrite Proofs.GroupingProofs.
From Verif Require Import Proofs.FormatValue Proofs.FormatScan Proofs.FloatPrecisionProofs Proofs.FloatWriteProofs.
From Verif Require Spec.FloatSpec.
Set Default Proof Using "Type".
Local Open Scope Z_scope.
Ltac Zify.zify_post_hook ::= idtac.

(** [r] returns a result with [Q], or throws. *)
Definition safe {A} (r : res A) (Q : A -> Prop) : Prop := match r with Ok a => Q a | Throw => True | _ => False end.

Lemma safe_bind {A B} (r : res A) (f : A -> res B) Q : safe r (fun a => safe (f a) Q) -> safe (bind r f) Q.
Proof. by destruct r. Qed.
Lemma safe_mono {A} (r : res A) (P Q : A -> Prop) : safe r P -> (forall a, P a -> Q a) -> safe r Q.
Proof. destruct r; cbn; auto. Qed.
Lemma safe_wp {A} (r : res A) (Q : A -> Prop) : wp r Q -> safe r Q.
Proof. by intros (a & -> & H). Qed.
Lemma safe_get {A} (l : list A) i (Q : A -> Prop) : (i < length l)%nat -> (forall x, l !! i = Some x -> Q x) -> safe (get l i) Q.
Proof. intros H HQ. unfold get. destruct (lookup_lt_is_Some_2 l i H) as [x Hx]. rewrite Hx. by apply HQ. Qed.
Lemma safe_loop {S R} (Inv : S -> Prop) (measure : S -> nat) fuel (step : S -> res (S + R)) (s : S) (Q : R -> Prop) :
  (measure s < fuel)%nat -> Inv s ->
  (forall s, Inv s -> safe (step s) (fun o => match o with inl s' => Inv s' /\ (measure s' < measure s)%nat | inr r => Q r end)) ->
  safe (loop fuel step s) Q.
Proof.
  revert s. induction fuel as [|fuel IH]; intros s Hm Hi Hstep; cbn [loop]; [lia|].
  apply safe_bind. eapply safe_mono; [by apply Hstep|].
  intros [s'|r]; [|done]. intros [Hs' Hlt]. apply IH; [lia|done|done].
Qed.
Lemma safe_for_up {S} (Inv : nat -> S -> Prop) n i body (s : S) (Q : S -> Prop) :
  Inv i s -> (forall k s, (i <= k)%nat -> (k < i + n)%nat -> Inv k s -> safe (body k s) (Inv (Datatypes.S k))) ->
  (forall s, Inv (i + n)%nat s -> Q s) -> safe (for_up n i body s) Q.
Proof.
  revert i s. induction n as [|n IH]; intros i s Hi Hstep HQ; cbn [for_up].
  - apply HQ. by rewrite Nat.add_0_r.
  - apply safe_bind. eapply safe_mono; [apply Hstep; [lia|lia|done]|].
    intros s' Hs'. apply IH; [done| |].
    + intros k s1 ? ?. apply Hstep; lia.
    + intros s1 H1. apply HQ. by replace (i + Datatypes.S n)%nat with (Datatypes.S i + n)%nat by lia.
Qed.

(** ** Numbers *)

Lemma digits_split s begin c : s !! begin = Some c -> is_digit c = true ->
  exists ds rest, drop begin s = (digit_char false <$> ds) ++ rest /\ Forall (fun d => 0 <= d < 10) ds /\ ds <> [] /\
    (forall c, head rest = Some c -> is_digit c = false).
Proof.
  intros Hc Hd.
  assert (H : forall l, exists ds rest, l = (digit_char false <$> ds) ++ rest /\ Forall (fun d => 0 <= d < 10) ds /\
    (forall c, head rest = Some c -> is_digit c = false)).
  { induction l as [|x l (ds & rest & -> & Hf & Hr)]; [by exists [], []|].
    destruct (is_digit x) eqn:Hx.
    - exists ((x - 48) :: ds), rest. unfold is_digit in Hx. apply andb_prop in Hx as [H1%Z.leb_le H2%Z.leb_le].
      split; [|split; [constructor; [lia|done]|done]]. rewrite fmap_cons. cbn [app]. f_equal. unfold digit_char. rewrite decide_True by lia. lia.
    - exists [], (x :: (digit_char false <$> ds) ++ rest). split; [done|]. split; [done|]. by intros ? [= <-]. }
  destruct (H (drop begin s)) as (ds & rest & Heq & Hf & Hr). exists ds, rest. split_and!; [done|done| |done].
  intros ->. cbn in Heq. rewrite (Hr c) in Hd; [done|]. rewrite <- Heq. by rewrite (drop_S s c begin).
Qed.

Definition parsed_number (error_value : Z) (ds : list Z) : Z :=
  if decide ((length ds <= 10)%nat /\ number 10 ds <= int_max) then number 10 ds else error_value.

Lemma parse_nonnegative_int_ok s begin e ds rest :
  drop begin s = (digit_char false <$> ds) ++ rest -> Forall (fun d => 0 <= d < 10) ds -> ds <> [] ->
  (forall c, head rest = Some c -> is_digit c = false) ->
  parse_nonnegative_int s begin e = Ok ((begin + length ds)%nat, parsed_number e ds).
Proof.
  intros Hs Hf Hne Hr. unfold parse_nonnegative_int.
  assert (Hlen : (length s = begin + length ds + length rest)%nat).
  { assert (begin <= length s)%nat.
    { destruct (decide (begin <= length s)%nat); [done|]. rewrite drop_ge in Hs by lia. by destruct ds. }
    apply (f_equal length) in Hs. rewrite drop_length, app_length, fmap_length in Hs. lia. }
  assert (Hds : forall i d, ds !! i = Some d -> s !! (begin + i)%nat = Some (48 + d)).
  { intros i d Hi. rewrite <- lookup_drop, Hs. rewrite lookup_app_l by (rewrite fmap_length; by apply lookup_lt_Some in Hi).
    rewrite list_lookup_fmap, Hi. cbn. f_equal. unfold digit_char. rewrite decide_True; [lia|].
    rewrite Forall_lookup in Hf. apply Hf in Hi. lia. }
  assert (Hrest : forall i, s !! (begin + length ds + i)%nat = rest !! i).
  { intros i. rewrite <- Nat.add_assoc, <- lookup_drop, Hs. rewrite lookup_app_r by (rewrite fmap_length; lia). rewrite fmap_length. f_equal. lia. }
  set (body := loop _ _ _).
  assert (Hbody : body = Ok (number 10 ds mod 2 ^ 32, number 10 (take (length ds - 1) ds) mod 2 ^ 32, (begin + length ds)%nat)).
  { cut (wp body (fun r => r = (number 10 ds mod 2 ^ 32, number 10 (take (length ds - 1) ds) mod 2 ^ 32, (begin + length ds)%nat))).
    { by intros (a & -> & ->). }
    unfold body. apply (wp_loop (fun '(value, prev, p) => exists i, p = (begin + i)%nat /\ (i < length ds)%nat /\ value = number 10 (take i ds) mod 2 ^ 32)
      (fun '(_, _, p) => (begin + length ds - p)%nat)).
    - lia.
    - exists 0%nat. rewrite Nat.add_0_r. destruct ds; [done|]. cbn. split_and!; [done|lia|done].
    - intros [[value prev] p] (i & -> & Hi & ->). destruct (lookup_lt_is_Some_2 ds i Hi) as [d Hd].
      unfold get at 1. rewrite (Hds _ _ Hd). cbn [bind].
      assert (Hv : (number 10 (take i ds) mod 2 ^ 32 * 10 + (48 + d - 48)) mod 2 ^ 32 = number 10 (take (S i) ds) mod 2 ^ 32).
      { rewrite (take_S_r ds i d) by done. rewrite number_app. cbn [length]. change (10 ^ Z.of_nat 1) with 10. unfold number at 3. cbn [fold_left].
        replace (0 * 10 + d) with d by lia. replace (48 + d - 48) with d by lia.
        rewrite Zplus_mod, Zmult_mod, Zmod_mod, <- Zmult_mod, <- Zplus_mod. done. }
      rewrite Hv. replace (S (begin + i))%nat with (begin + S i)%nat by lia.
      destruct (decide (S i = length ds)) as [He|He].
      + assert (Hfin : (number 10 (take (S i) ds) mod 2 ^ 32, number 10 (take i ds) mod 2 ^ 32, (begin + S i)%nat)
          = (number 10 ds mod 2 ^ 32, number 10 (take (length ds - 1) ds) mod 2 ^ 32, (begin + length ds)%nat)).
        { rewrite He, firstn_all. by replace (length ds - 1)%nat with i by lia. }
        destruct (decide ((begin + S i)%nat = length s)) as [He'|He']; [by apply wp_ok|].
        apply wp_bind, wp_get_lt; [lia|]. intros c Hc. rewrite He in Hc. rewrite <- (Nat.add_0_r (begin + _)), Hrest in Hc.
        rewrite (Hr c) by (by destruct rest). by apply wp_ok.
      + rewrite decide_False by lia. destruct (lookup_lt_is_Some_2 ds (S i) ltac:(lia)) as [d' Hd'].
        apply wp_bind. eapply wp_get; [by apply Hds|].
        replace (is_digit (48 + d')) with true.
        2: { rewrite Forall_lookup in Hf. apply Hf in Hd'. unfold is_digit. symmetry. apply andb_true_iff. rewrite !Z.leb_le. lia. }
        apply wp_ok. split; [|lia]. exists (S i). split_and!; [done|lia|done]. }
  rewrite Hbody. cbn [bind]. replace (begin + length ds - begin)%nat with (length ds) by lia.
  assert (Hsmall : forall l, Forall (fun d => 0 <= d < 10) l -> (length l <= 9)%nat -> 0 <= number 10 l < 10 ^ 9).
  { intros l Hl Hll. pose proof (number_bound 10 l ltac:(lia) Hl). assert (10 ^ Z.of_nat (length l) <= 10 ^ 9) by (apply Z.pow_le_mono_r; lia). lia. }
  unfold parsed_number, int_max. change (10 ^ 9) with 1000000000 in Hsmall.
  destruct (decide (length ds <= 9)%nat) as [H9|H9].
  - specialize (Hsmall ds Hf H9). rewrite decide_True by lia. rewrite Z.mod_small by lia. done.
  - destruct (decide (length ds = 10%nat)) as [H10|H10].
    2: { unfold get. destruct (lookup_lt_is_Some_2 s (begin + length ds - 1) ltac:(lia)) as [x ->]. cbn [bind].
         rewrite decide_False by lia. rewrite decide_False by lia. done. }
    destruct (lookup_lt_is_Some_2 ds 9 ltac:(lia)) as [d Hd].
    replace (begin + length ds - 1)%nat with (begin + 9)%nat by lia. unfold get. rewrite (Hds _ _ Hd). cbn [bind].
    rewrite H10. cbn [Nat.sub].
    assert (Hnum : number 10 ds = number 10 (take 9 ds) * 10 + d).
    { rewrite <- (firstn_all ds) at 1. rewrite H10, (take_S_r ds 9 d) by done. rewrite number_app. cbn [length]. change (10 ^ Z.of_nat 1) with 10.
      unfold number at 2. cbn [fold_left]. lia. }
    assert (Hd' : 0 <= d < 10) by (rewrite Forall_lookup in Hf; by apply Hf in Hd).
    pose proof (Hsmall (take 9 ds) (Forall_take _ _ _ Hf) ltac:(rewrite take_length; lia)) as Hp.
    rewrite (Z.mod_small (number 10 (take 9 ds))) by lia. unfold max_int.
    destruct (decide (number 10 ds <= 2147483647)) as [Hle|Hgt].
    + rewrite decide_True by lia. rewrite decide_True by lia. rewrite Z.mod_small by lia. done.
    + rewrite decide_False by lia. rewrite decide_False by lia. done.
Qed.

Lemma parsed_number_range e ds : Forall (fun d => 0 <= d < 10) ds -> parsed_number e ds = e \/ 0 <= parsed_number e ds <= int_max.
Proof.
  intros Hf. unfold parsed_number. destruct (decide _) as [[_ H]|]; [|by left]. right. pose proof (number_bound 10 ds ltac:(lia) Hf). lia.
Qed.

Lemma parse_nonnegative_int_safe s begin e c : s !! begin = Some c -> is_digit c = true ->
  safe (parse_nonnegative_int s begin e) (fun '(p, v) => (begin < p <= length s)%nat /\ (v = e \/ 0 <= v <= int_max)).
Proof.
  intros Hc Hd. destruct (digits_split s begin c Hc Hd) as (ds & rest & Hs & Hf & Hne & Hr).
  rewrite (parse_nonnegative_int_ok s begin e ds rest) by done. cbn [safe]. split; [|by apply parsed_number_range].
  pose proof (lookup_lt_Some _ _ _ Hc). apply (f_equal length) in Hs. rewrite drop_length, app_length, fmap_length in Hs. destruct ds; [done|]. cbn in *. lia.
Qed.

(** ** Arguments and specs *)

Lemma parse_arg_id_safe s begin : (begin < length s)%nat ->
  safe (parse_arg_id s begin) (fun '(b, _) => (begin <= b <= length s)%nat).
Proof.
  intros Hb. unfold parse_arg_id. apply safe_bind, safe_get; [done|]. intros c Hc.
  destruct (decide (c <> 125 /\ c <> 58)) as [Hn|Hn]; [|cbn; lia].
  destruct (is_digit c) eqn:Hd.
  - apply safe_bind. apply (safe_mono _ (fun '(b, _) => (begin < b <= length s)%nat)).
    + destruct (decide (c <> 48)); [|cbn; lia]. eapply safe_mono; [by eapply parse_nonnegative_int_safe|]. intros [p v] [? _]. done.
    + intros [b v] Hbv. destruct (decide (b = length s)); [done|]. apply safe_bind, safe_get; [lia|]. intros c' _.
      destruct (decide _); [done|]. cbn. lia.
  - destruct (is_name_start c); [|done]. apply safe_bind.
    apply (safe_mono _ (fun it => (begin <= it <= length s)%nat)).
    + apply (safe_loop (fun it => (begin <= it < length s)%nat) (fun it => (length s - it)%nat)); [lia|lia|].
      intros it Hit. destruct (decide (S it = length s)); [cbn; lia|]. apply safe_bind, safe_get; [lia|]. intros c' _.
      destruct (_ || _); cbn; lia.
    + intros it Hit. cbn. lia.
Qed.
Lemma dynamic_id_safe id next : safe (dynamic_id id next) (fun _ => True).
Proof.
  destruct id as [|i|n]; cbn; [|unfold check_arg_id; by destruct (decide _)|done].
  unfold next_arg_id. by destruct (decide _).
Qed.
Definition value_ok (v : option Z) : Prop := forall z, v = Some z -> 0 <= z <= int_max.
Lemma parse_dynamic_spec_safe s begin next : (begin < length s)%nat ->
  safe (parse_dynamic_spec s begin next) (fun '(b, v, _, _) => (begin <= b <= length s)%nat /\
    (forall c, s !! begin = Some c -> is_digit c || (c =? 123) = true -> (begin < b)%nat) /\ value_ok v).
Proof.
  intros Hb. unfold parse_dynamic_spec. apply safe_bind, safe_get; [done|]. intros c Hc.
  destruct (is_digit c) eqn:Hd.
  - apply safe_bind. eapply safe_mono; [by eapply parse_nonnegative_int_safe|]. intros [p v] [Hp Hv]. destruct (decide (v <> -1)) as [Hv'|]; [|done].
    cbn. split; [lia|]. split; [lia|]. intros z [= <-]. destruct Hv; [done|lia].
  - destruct (decide (c = 123)) as [|Hn].
    2: { cbn. split; [lia|]. split; [|done]. intros c' Hc' Hd'. rewrite Hc in Hc'. injection Hc' as <-. rewrite Hd in Hd'. cbn in Hd'. apply Z.eqb_eq in Hd'. done. } destruct (decide (S begin = length s)); [done|].
    apply safe_bind. eapply safe_mono; [apply parse_arg_id_safe; lia|]. intros [b id] Hb'.
    apply safe_bind. eapply safe_mono; [apply dynamic_id_safe|]. intros [r nx] _. destruct (decide (b = length s)); [done|].
    apply safe_bind, safe_get; [lia|]. intros c' _. destruct (decide _); [|done]. cbn. split; [lia|]. split; [lia|done].
Qed.
Lemma parse_precision_safe s begin next : (begin < length s)%nat ->
  safe (parse_precision s begin next) (fun '(b, v, _, _) => (begin < b <= length s)%nat /\ value_ok v).
Proof.
  intros Hb. unfold parse_precision. destruct (decide (S begin = length s)); [done|].
  apply safe_bind, safe_get; [lia|]. intros c _. destruct (decide (c = 125)); [done|].
  eapply safe_mono; [apply parse_dynamic_spec_safe; lia|]. intros [[[b v] r] nx] (? & _ & ?). split; [lia|done].
Qed.

Definition pres_for (t : ty) (p : pres) : Prop :=
  match p with
  | PNone => True
  | PString => t = TBool \/ t = TStr \/ t = TCstr
  | PDebug => t = TChar \/ t = TStr \/ t = TCstr
  | PPointer => t = TPtr \/ t = TCstr
  | PHexFloat _ | PExp _ | PFixed _ | PGeneral _ => is_floating t = true
  | _ => is_integral t = true
  end.
(** The specs a value of type [t] may get. *)
Definition specs_ok (t : ty) (sp : specs) : Prop :=
  0 <= width sp <= int_max /\ -1 <= precision sp <= int_max /\
  (t <> TStr -> t <> TCstr -> is_floating t = false -> precision sp = -1 /\ precision_ref sp = RNone) /\
  pres_for t (typ sp) /\ fill sp <> [] /\ (al sp = ANumeric -> fill sp = [48]).

Lemma enter_state_safe cur st v : safe (enter_state cur st v) (fun x => x = st /\ v = true /\ (cur < st)%nat).
Proof. unfold enter_state. destruct (decide _) as [|H]; [done|]. cbn. destruct v; [split_and!; [done|done|lia]|]. exfalso. apply H. by right. Qed.
Lemma code_point_length_range c : (1 <= code_point_length c <= 4)%nat.
Proof.
  unfold code_point_length. set (x := Z.shiftr _ (2 * _)).
  pose proof (Z.land_ones x 2 ltac:(lia)) as H. change (Z.ones 2) with 3 in H. rewrite H.
  pose proof (Z.mod_pos_bound x (2 ^ 2) ltac:(lia)). change (2 ^ 2) with 4 in *. lia.
Qed.

Lemma parse_align_not_numeric c : parse_align c <> ANumeric.
Proof. unfold parse_align. destruct (decide (c = 60)), (decide (c = 62)), (decide (c = 94)); done. Qed.
Lemma specs_step_safe s t begin c st sp next :
  (begin < length s)%nat -> specs_ok t sp -> (st = 0%nat -> al sp = ANone /\ fill sp = [32]) -> (al sp = ANone -> fill sp = [32]) ->
  (c = 0 \/ s !! begin = Some c) ->
  safe (specs_step s t (begin, c, st, sp, next)) (fun o =>
    match o with
    | inl (b, c', st', sp', next') => (begin < b < length s)%nat /\ specs_ok t sp' /\ (0 < st')%nat /\ (al sp' = ANone -> fill sp' = [32]) /\ s !! b = Some c'
    | inr (b, sp', next') => (begin <= b <= length s)%nat /\ specs_ok t sp'
    end).
Proof.
  intros Hb (Hw & Hp & Hnp & Hpr & Hfl & Hal) Hst Hfill Hc. unfold specs_step. set (cont := continue_at s).
  assert (Hcont : forall b st sp next, (begin < b <= length s)%nat -> (0 < st)%nat -> specs_ok t sp -> (al sp = ANone -> fill sp = [32]) ->
    safe (cont b st sp next) (fun o =>
    match o with
    | inl (b, c', st', sp', next') => (begin < b < length s)%nat /\ specs_ok t sp' /\ (0 < st')%nat /\ (al sp' = ANone -> fill sp' = [32]) /\ s !! b = Some c'
    | inr (b, sp', next') => (begin <= b <= length s)%nat /\ specs_ok t sp'
    end)).
  { intros b st' sp' next' Hb' Hst' Hsp Hf. unfold cont, continue_at. destruct (decide (b = length s)); [cbn; split; [lia|done]|].
    apply safe_bind, safe_get; [lia|]. intros c' Hc'. cbn. split_and!; [lia|lia|done|done|done|done]. }
  clearbody cont.
  destruct (decide (c = 60 \/ c = 62 \/ c = 94)) as [H1|H1].
  { apply safe_bind. eapply safe_mono; [apply enter_state_safe|]. intros st' (-> & _ & Hlt). apply Hcont; [lia|lia| |].
    - unfold specs_ok. cbn -[int_max parse_align]. split_and!; try done; try lia. intros H. by apply parse_align_not_numeric in H.
    - cbn. intros _. apply Hst. lia. }
  destruct (decide (c = 43 \/ c = 45 \/ c = 32)) as [H2|H2].
  { apply safe_bind. eapply safe_mono; [apply enter_state_safe|]. intros st' (-> & _). apply Hcont; [lia|lia| |done]. done. }
  destruct (decide (c = 35)) as [H3|H3].
  { apply safe_bind. eapply safe_mono; [apply enter_state_safe|]. intros st' (-> & _). apply Hcont; [lia|lia| |done]. done. }
  destruct (decide (c = 48)) as [H4|H4].
  { apply safe_bind. eapply safe_mono; [apply enter_state_safe|]. intros st' (-> & _). destruct (is_arithmetic t); [|done]. apply Hcont; [lia|lia| |].
    - destruct (decide (al sp = ANone)) as [Ha|Ha]; [|done]. unfold specs_ok. cbn -[int_max]. rewrite (Hfill Ha). cbn -[int_max]. split_and!; done || lia || tauto.
    - destruct (decide (al sp = ANone)) as [Ha|Ha]; [done|]. done. }
  destruct (is_digit c || (c =? 123)) eqn:H5.
  { apply safe_bind. eapply safe_mono; [apply enter_state_safe|]. intros st' (-> & _).
    destruct Hc as [->|Hc]; [done|].
    apply safe_bind. 
    apply (safe_mono _ (fun '(b, v, _, _) => (begin < b <= length s)%nat /\ value_ok v)).
    { eapply safe_mono; [by apply parse_dynamic_spec_safe|]. intros [[[b v] r] nx] (? & Hlt & ?). specialize (Hlt c Hc H5). split; [lia|done]. }
    intros [[[b v] r] nx] [Hb' Hv]. apply Hcont; [lia|lia| |].
    - destruct v as [v|]; [specialize (Hv v eq_refl)|]; destruct r; unfold specs_ok; cbn -[int_max]; split_and!; done || lia.
    - destruct v, r; done. }
  destruct (decide (c = 46)) as [H6|H6].
  { apply safe_bind. eapply safe_mono; [apply enter_state_safe|]. intros st' (-> & Ht & _).
    apply safe_bind. eapply safe_mono; [by apply parse_precision_safe|]. intros [[[b v] r] nx] [Hb' Hv]. apply Hcont; [lia|lia| |].
    - destruct t; try done; (destruct v as [v|]; [specialize (Hv v eq_refl)|]; destruct r; unfold specs_ok; cbn -[int_max]; split_and!; done || lia).
    - destruct v, r; done. }
  destruct (decide (c = 76)) as [H7|H7].
  { apply safe_bind. eapply safe_mono; [apply enter_state_safe|]. intros st' (-> & _). apply Hcont; [lia|lia| |done]. done. }
  destruct (presentation c) as [[p f]|] eqn:Hpc.
  { destruct (f t) eqn:Hft; [|done]. cbn -[int_max]. split; [lia|]. unfold specs_ok. cbn -[int_max]. split_and!; try done; try lia.
    revert Hpc. unfold presentation. repeat (destruct (decide _); [intros [= <- <-]; destruct t; cbn in *; (done || (by left) || (by right) || (by right; left) || (by right; right))|]).
    done. }
  destruct (decide (c = 125)); [cbn -[int_max]; split; [lia|done]|].
  apply safe_bind, safe_get; [done|]. intros x Hx. destruct (decide (x = 125)); [cbn -[int_max]; split; [lia|done]|].
  pose proof (code_point_length_range x) as Hl.
  destruct (decide (length s <= begin + code_point_length x)%nat) as [|Hle]; [done|]. destruct (decide (x = 123)); [done|].
  apply safe_bind, safe_get; [lia|]. intros a Ha. apply safe_bind. eapply safe_mono; [apply enter_state_safe|].
  intros st' (-> & Hpa & _). apply bool_decide_eq_true in Hpa. apply Hcont; [lia|lia| |].
  - unfold specs_ok. cbn -[int_max parse_align]. split_and!; try done; try lia.
    + intros Hn. apply (f_equal length) in Hn. rewrite slice_length in Hn by lia. cbn in Hn. lia.
    + intros Hq. by apply parse_align_not_numeric in Hq.
  - done.
Qed.

Lemma default_specs_ok t : specs_ok t default_specs.
Proof. unfold specs_ok. cbn -[int_max]. unfold int_max. split_and!; done || lia. Qed.

Lemma parse_format_specs_safe s begin t next : (begin <= length s)%nat ->
  safe (parse_format_specs s begin t next) (fun '(b, sp, _) => (begin <= b <= length s)%nat /\ specs_ok t sp).
Proof.
  intros Hb. unfold parse_format_specs. destruct (decide (begin = length s)) as [->|Hne]; [split; [lia|apply default_specs_ok]|].
  apply safe_bind, safe_get; [lia|]. intros b Hbc. apply safe_bind.
  apply (safe_mono _ (fun c => c = 0 \/ s !! begin = Some c)).
  { destruct (decide _); [|by right]. apply safe_bind, safe_get; [lia|]. intros n _. destruct (decide _); [by right|by left]. }
  intros c Hc.
  apply (safe_loop (fun '(b, c, st, sp, next) => (begin <= b < length s)%nat /\ specs_ok t sp /\ (st = 0%nat -> al sp = ANone /\ fill sp = [32])
      /\ (al sp = ANone -> fill sp = [32]) /\ (c = 0 \/ s !! b = Some c)) (fun '(b, _, _, _, _) => (length s - b)%nat)).
  - lia.
  - split_and!; [lia|lia|apply default_specs_ok|done|done|done].
  - intros [[[[b' c'] st] sp] nx] (Hb' & Hsp & Hst & Hf & Hc').
    eapply safe_mono; [apply specs_step_safe; [lia|done|done|done|done]|].
    intros [[[[[b2 c2] st2] sp2] nx2]|[[b2 sp2] nx2]].
    + intros (Hb2 & Hsp2 & Hst2 & Hf2 & Hc2). split; [|lia]. split_and!; [lia|lia|done|lia|done|by right].
    + intros [? ?]. split; [lia|done].
Qed.

(** ** Writing *)

Definition scalar_ok (v : scalar) : Prop :=
  match v with
  | VInt t z => int_type t /\ in_range t z = true
  | VBool _ => True
  | VChar c => is_byte c
  | VStr s => Forall is_byte s
  | VFloat bits => 0 <= bits < 2 ^ 32
  | VDouble bits => 0 <= bits < 2 ^ 64
  | VCstr addr chars => 0 <= addr < 2 ^ 64 /\ Forall is_byte chars /\ (addr <> 0 -> In 0 chars)
  | VPtr addr => 0 <= addr < 2 ^ 64
  end.
(** The field with these specs. *)
Definition field_of (sp : specs) : field :=
  Field (fill sp) (match al sp with ALeft => Some PlLeft | ARight => Some PlRight | ACenter => Some PlCenter | _ => None end)
    (match sgn sp with SNone => None | SPlus => Some Plus | SMinus => Some Minus | SSpace => Some Space end)
    (alt sp) (bool_decide (al sp = ANumeric)) NoCount NoCount (localized sp)
    (match typ sp with
     | PNone => None | PDec => Some (InBase Dec) | POct => Some (InBase Oct) | PHexLower => Some (InBase (Hex false))
     | PHexUpper => Some (InBase (Hex true)) | PBinLower => Some (InBase (Bin false)) | PBinUpper => Some (InBase (Bin true))
     | PChr => Some AsChar | PString => Some AsString | PDebug => Some AsDebug | PPointer => Some AsPointer
     | PHexFloat u => Some (AsFloat StHex u) | PExp u => Some (AsFloat StScientific u) | PFixed u => Some (AsFloat StFixed u)
     | PGeneral u => Some (AsFloat StGeneral u) end).
Lemma field_of_ok sp : fill sp <> [] -> (al sp = ANumeric -> fill sp = [48]) ->
  specs_of (field_of sp) (width sp) (precision sp) (width_ref sp) (precision_ref sp) = sp.
Proof.
  destruct sp as [w p ty a sg alt lo fl wr pr]. cbn. intros Hf Ha. unfold specs_of. cbn. f_equal.
  - by destruct ty.
  - by destruct a.
  - by destruct sg.
  - unfold fill_text, zero_padded. cbn. destruct a; cbn; try (by destruct fl). by rewrite Ha.
Qed.

Lemma check_char_specs_cases sp : check_char_specs sp = Throw \/ exists b, check_char_specs sp = Ok b.
Proof. unfold check_char_specs. destruct (typ sp); eauto; destruct (decide (_ \/ _)); eauto. Qed.
Lemma floating_safe E I F out br sp : kind_of I F -> env_ok E -> 0 <= br < 2 ^ carrier_bits I -> 0 <= width sp < 2 ^ 31 -> -1 <= precision sp < 2 ^ 31 ->
  safe (write_floating E I out br sp) (fun out' => exists text, out' = out ++ text).
Proof.
  intros HIF HE Hbr Hw Hp. unfold write_floating. destruct (float_presentation (typ sp)) as [pr|]; [|done].
  destruct (write_total E (point E) I F br pr sp HIF HE Hbr Hw ltac:(unfold max_int; lia)) as [[[text Ht] _]|[Ht _]]; rewrite Ht; cbn; eauto.
Qed.
Lemma write_value_safe E out v sp : env_ok E -> (length (sep E) <= 1)%nat -> scalar_ok v -> specs_ok (type_of v) sp ->
  safe (write_value E out v sp) (fun out' => exists text, out' = out ++ text).
Proof.
  intros HE Hsep Hv (Hw & Hp & Hnp & Hpr & Hfl & Hal).
  rewrite <- (field_of_ok sp) by done. set (f := field_of sp). unfold int_max in *.
  assert (Hint : forall t z, int_type t -> in_range t z = true -> type_of v <> TStr -> type_of v <> TCstr -> is_floating (type_of v) = false -> typ sp <> PString -> typ sp <> PDebug -> typ sp <> PPointer ->
    safe (write_int_specs E out t z (specs_of f (width sp) (precision sp) (width_ref sp) (precision_ref sp))) (fun out' => exists text, out' = out ++ text)).
  { intros t z Ht Hz Hn Hnc Hnf Hs Hd Hpp. destruct (Hnp Hn Hnc Hnf) as [-> _].
    destruct (int_shows_ok E t z f (width sp) (width_ref sp) (precision_ref sp) HE Hsep Ht Hz ltac:(lia)) as (text & _ & Hout).
    - unfold f. cbn. destruct (typ sp); try done; cbn in Hpr; congruence.
    - rewrite Hout. cbn. eauto. }
  destruct v as [t z|b|c|s|br|br|a chars|a]; cbn [scalar_ok type_of write_value] in *.
  - destruct Hv as [Ht Hz]. destruct (signed t) eqn:Hsg; (apply Hint; [done|done|done|done|done|..]); intros Hty; rewrite Hty in Hpr; cbn in Hpr; naive_solver.
  - change (safe (write_value E out (VBool b) (specs_of f (width sp) (precision sp) (width_ref sp) (precision_ref sp))) (fun out' => exists text, out' = out ++ text)).
    destruct (Hnp ltac:(done) ltac:(done) ltac:(done)) as [-> _].
    destruct (bool_shows_ok E b f (width sp) (width_ref sp) (precision_ref sp) HE Hsep ltac:(lia)) as (text & _ & Hout).
    + unfold f. cbn. destruct (typ sp); try done. cbn in Hpr. naive_solver.
    + unfold f. cbn. destruct (typ sp); try done. cbn in Hpr. naive_solver.
    + intros st u. unfold f. cbn. destruct (typ sp); done.
    + rewrite Hout. cbn. eauto.
  - destruct (check_char_specs _) as [[]| | |] eqn:Hck; cbn [bind]; [| |done|..].
    + unfold check_char_specs in Hck. cbn [typ al sgn alt specs_of] in Hck. destruct (pres_of (f_type f)) eqn:Hty; try done.
      * destruct (char_shows_ok f (width sp) (precision sp) (width_ref sp) (precision_ref sp) c ltac:(lia)) as (text & _ & Hout); [by rewrite Hty|].
        rewrite Hout. cbn. eauto.
      * destruct (char_shows_ok f (width sp) (precision sp) (width_ref sp) (precision_ref sp) c ltac:(lia)) as (text & _ & Hout); [by rewrite Hty|].
        rewrite Hout. cbn. eauto.
      * unfold write_char. rewrite (write_padded_ok _ _ _ _ _ _ (debug_char c)); [cbn; eauto|cbn; lia|lia|].
        intros it. cbn [typ specs_of]. rewrite Hty, decide_True by done. by apply debug_char_ok.
    + apply Hint; [unfold int_type; cbn; lia| |done|done|done|..].
      * unfold is_byte in Hv. unfold in_range, lo, hi. cbn. apply andb_true_iff. rewrite !Z.leb_le. lia.
      * intros Hty. rewrite Hty in Hpr. cbn in Hpr. naive_solver.
      * intros Hty. unfold check_char_specs in Hck. unfold f in Hck. cbn [typ specs_of field_of f_type] in Hck. rewrite Hty in Hck. cbn [pres_of] in Hck.
        destruct (decide _) in Hck; done.
      * intros Hty. rewrite Hty in Hpr. cbn in Hpr. naive_solver.
    + destruct (check_char_specs_cases (specs_of f (width sp) (precision sp) (width_ref sp) (precision_ref sp))) as [?|[? ?]]; congruence.
    + destruct (check_char_specs_cases (specs_of f (width sp) (precision sp) (width_ref sp) (precision_ref sp))) as [?|[? ?]]; congruence.
  - destruct (pieces_exist s Hv) as [ps Hps].
    destruct (string_shows_ok E s ps f (width sp) (precision sp) (width_ref sp) (precision_ref sp) ltac:(lia) ltac:(lia) Hv Hps) as (text & _ & Hout).
    + unfold f. cbn. destruct (typ sp); cbn in Hpr; try done; auto; naive_solver.
    + cbn [write_value] in Hout. rewrite Hout. cbn. eauto.
  - apply (floating_safe E float_info_float FloatSpec.binary32); [by right|done|done|cbn; lia|cbn; lia].
  - apply (floating_safe E float_info_double FloatSpec.binary64); [by left|done|done|cbn; lia|cbn; lia].
  - destruct Hv as (Ha & Hby & H0). unfold write_cstring. destruct (decide (typ _ = _)) as [Hty|Hty].
    2: destruct (decide (a = 0)) as [|Hne]; [done|]; destruct (c_string_find chars (H0 Hne)) as (s & rest & Hs & ->);
      apply Forall_app in Hby as [Hby _]; rewrite c_string_ok by done; cbn [bind].
    + destruct (pointer_shows_ok E a f (width sp) (precision sp) (width_ref sp) (precision_ref sp) ltac:(lia) ltac:(lia)) as (text & _ & Hout). rewrite Hout. cbn. eauto.
    + destruct (pieces_exist s Hby) as [ps Hps].
      destruct (string_shows_ok E s ps f (width sp) (precision sp) (width_ref sp) (precision_ref sp) ltac:(lia) ltac:(lia) Hby Hps) as (text & _ & Hout).
      * unfold f in *. cbn in *. destruct (typ sp); cbn in Hpr; try done; auto; naive_solver.
      * cbn [write_value] in Hout. rewrite Hout. cbn. eauto.
  - destruct (pointer_shows_ok E a f (width sp) (precision sp) (width_ref sp) (precision_ref sp) ltac:(lia) ltac:(lia)) as (text & _ & Hout). rewrite Hout. cbn. eauto.
Qed.

Lemma write_value_default_safe E out v : env_ok E -> scalar_ok v -> safe (write_value_default E out v) (fun out' => exists text, out' = out ++ text).
Proof.
  intros HE Hv. destruct v as [t z|b|c|s|br|br|a chars|a]; cbn [scalar_ok] in *.
  - destruct (write_default_value_ok E t z) as (text & _ & Hout); [apply Hv|apply Hv|]. rewrite Hout. cbn. eauto.
  - cbn [write_value_default]. unfold write_bytes. rewrite (write_padded_ok _ _ _ _ _ _ (bool_name b)); [cbn; eauto|cbn; lia|lia|done].
  - cbn. eauto.
  - cbn. eauto.
  - cbn [write_value_default]. rewrite (float_same E (point E)) by done.
    by apply (floating_safe E float_info_float FloatSpec.binary32 out br default_specs); [right|..].
  - cbn [write_value_default]. rewrite (double_same E (point E)) by done.
    by apply (floating_safe E float_info_double FloatSpec.binary64 out br default_specs); [left|..].
  - destruct Hv as (Ha & Hby & H0). cbn [write_value_default]. unfold write_cstring_default. destruct (decide _) as [Hne|]; [|done].
    destruct (c_string_find chars (H0 Hne)) as (s & rest & Hs & ->). rewrite c_string_ok by done. cbn. eauto.
  - cbn [write_value_default]. destruct (pointer_shows_ok E a (field_of default_specs) 0 (-1) RNone RNone ltac:(lia) ltac:(lia)) as (text & _ & Hout).
    specialize (Hout out). pose proof (field_of_ok default_specs ltac:(done) ltac:(done)) as Hd. cbn [width precision width_ref precision_ref default_specs] in Hd. fold default_specs in Hd.
    rewrite Hd in Hout. rewrite Hout. cbn. eauto.
Qed.

(** ** Fields and strings *)

Section custom.
  Context {C : Type} (custom : env -> args C -> C -> list Z -> nat -> Z -> list Z -> res (nat * Z * list Z)).
  Context (custom_ok : C -> Prop).
  Definition arg_ok (a : arg C) : Prop := match a with AScalar v => scalar_ok v | ACustom c => custom_ok c end.
  Definition args_ok (A : args C) : Prop := Forall arg_ok (argv A).
  (** What is asked of the formatter of [C]. *)
  Definition custom_safe (E : env) : Prop := forall A c s begin next out, args_ok A -> custom_ok c -> (begin <= length s)%nat ->
    safe (custom E A c s begin next out) (fun '(b, _, out') => (begin <= b <= length s)%nat /\ exists text, out' = out ++ text).

  Lemma get_arg_safe A id : args_ok A -> safe (get_arg A id) arg_ok.
  Proof.
    intros HA. unfold get_arg. destruct (decide _) as [Hid|]; [|done]. apply safe_get; [lia|]. intros a Ha.
    unfold args_ok in HA. rewrite Forall_lookup in HA. by eapply HA.
  Qed.
  Lemma handle_dynamic_spec_safe A value r : args_ok A -> 
    safe (handle_dynamic_spec A value r) (fun w => r = RNone /\ w = value \/ r <> RNone /\ 0 <= w <= int_max).
  Proof.
    intros HA. assert (Hg : forall id, safe (let* a := get_arg A id in get_dynamic_spec a) (fun w => 0 <= w <= int_max)).
    { intros id. apply safe_bind. eapply safe_mono; [by apply get_arg_safe|]. intros a _. unfold get_dynamic_spec.
      destruct a as [[]|]; try done. destruct (decide _); [done|]. destruct (decide _); [done|]. unfold max_int, int_max in *. cbn. lia. }
    destruct r as [|i|n]; cbn [handle_dynamic_spec]; [cbn; auto|..]; (eapply safe_mono; [apply Hg|]); intros w Hw; right; done.
  Qed.
  Lemma on_arg_id_safe (A : args C) id next : safe (on_arg_id A id next) (fun _ => True).
  Proof.
    destruct id; cbn; unfold next_arg_id, check_arg_id; repeat (destruct (decide _); try done).
  Qed.

  Lemma dynamic_specs_ok A t sp : args_ok A -> specs_ok t sp ->
    safe (let* w := handle_dynamic_spec A (width sp) (width_ref sp) in
          let* p := handle_dynamic_spec A (precision sp) (precision_ref sp) in
          Ok (set_precision (set_width sp w) p)) (specs_ok t).
  Proof.
    intros HA (Hw & Hp & Hnp & Hpr & Hfl & Hal).
    apply safe_bind. eapply safe_mono; [by apply handle_dynamic_spec_safe|]. intros w Hw'.
    apply safe_bind. eapply safe_mono; [by apply handle_dynamic_spec_safe|]. intros p Hp'.
    unfold int_max in *. unfold safe, specs_ok. cbn. unfold int_max. split_and!; [lia|lia|lia|lia| |done|done|done].
    intros Ht Hc Hf. destruct (Hnp Ht Hc Hf) as [H1 H2]. split; [|done]. destruct Hp' as [[_ ->]|[? _]]; done.
  Qed.
  Context (E : env) (HE : env_ok E) (Hsep : (length (sep E) <= 1)%nat) (Hcustom : custom_safe E).

  Lemma write_arg_default_safe A out a : args_ok A -> arg_ok a -> safe (write_arg_default custom E A out a) (fun out' => exists text, out' = out ++ text).
  Proof using HE Hcustom Hsep.
    intros HA Ha. destruct a as [v|c]; cbn [write_arg_default]; [by apply write_value_default_safe|].
    apply safe_bind. eapply safe_mono; [apply (Hcustom A c [] 0%nat 0 out); [done|done|cbn; lia]|]. intros [[b n] o] [_ Ho]. done.
  Qed.
  Lemma on_format_specs_safe A s id begin next out : args_ok A -> (begin <= length s)%nat ->
    safe (on_format_specs custom E A s id begin next out) (fun '(b, _, out') => (begin <= b <= length s)%nat /\ exists text, out' = out ++ text).
  Proof using HE Hcustom Hsep.
    intros HA Hb. unfold on_format_specs. apply safe_bind. eapply safe_mono; [by apply get_arg_safe|].
    intros [v|c] Ha; [|by apply Hcustom]. cbn [arg_ok] in Ha.
    apply safe_bind. eapply safe_mono; [by apply parse_format_specs_safe|]. intros [[b sp] nx] [Hb' Hsp].
    pose proof (dynamic_specs_ok A _ sp HA Hsp) as Hd.
    destruct (handle_dynamic_spec A (width sp) (width_ref sp)) as [w| | |]; cbn [bind] in *; try done.
    destruct (handle_dynamic_spec A (precision sp) (precision_ref sp)) as [p| | |]; cbn [bind] in *; try done.
    destruct (decide (b = length s)); [done|]. apply safe_bind, safe_get; [lia|]. intros x _. destruct (decide _); [done|].
    apply safe_bind. eapply safe_mono; [by apply write_value_safe|]. intros o Ho. cbn. split; [lia|done].
  Qed.
  Lemma parse_replacement_field_safe A s begin next out : args_ok A -> (begin < length s)%nat ->
    safe (parse_replacement_field custom E A s begin next out) (fun '(b, _, out') => (begin < b <= length s)%nat /\ exists text, out' = out ++ text).
  Proof using HE Hcustom Hsep.
    intros HA Hb. unfold parse_replacement_field, replacement_field. destruct (decide (S begin = length s)) as [|Hne]; [done|].
    assert (Hof : forall id, safe (on_replacement_field custom E A id out) (fun out' => exists text, out' = out ++ text)).
    { intros id. unfold on_replacement_field. apply safe_bind. eapply safe_mono; [by apply get_arg_safe|]. intros a Ha. by apply write_arg_default_safe. }
    apply safe_bind, safe_get; [lia|]. intros c Hc. destruct (decide (c = 125)) as [H1|H1].
    { apply safe_bind. eapply safe_mono; [apply on_arg_id_safe|]. intros [id nx] _. apply safe_bind. eapply safe_mono; [apply Hof|].
      intros o Ho. cbn. split; [lia|done]. }
    destruct (decide (c = 123)) as [H2|H2]; [cbn; split; [lia|eauto]|].
    apply safe_bind. eapply safe_mono; [apply parse_arg_id_safe; lia|]. intros [b id] Hb'.
    apply safe_bind. eapply safe_mono; [apply on_arg_id_safe|]. intros [id' nx] _.
    apply safe_bind. apply (safe_mono _ (fun c => c <> 0 -> (b < length s)%nat)).
    { destruct (decide (b <> length s)) as [|Hbe]; [|cbn; done]. apply safe_get; [lia|]. intros ? _ _. lia. }
    intros c' Hc'. destruct (decide (c' = 125)) as [->|H3].
    { apply safe_bind. eapply safe_mono; [apply Hof|]. intros o Ho. cbn. specialize (Hc' ltac:(done)). split; [lia|done]. }
    destruct (decide (c' = 58)) as [->|H4]; [|done]. specialize (Hc' ltac:(done)).
    apply safe_bind. eapply safe_mono; [apply on_format_specs_safe; [done|lia]|]. intros [[b2 n2] o2] [Hb2 Ho2].
    destruct (decide (b2 = length s)); [done|]. apply safe_bind, safe_get; [lia|]. intros x _. destruct (decide _); [done|]. cbn. split; [lia|done].
  Qed.

  Lemma progress_ok A s : args_ok A -> progress s (parse_replacement_field custom E A s).
  Proof using HE Hcustom Hsep.
    intros HA p next out b next' out' HP.
    destruct (decide (p < length s)%nat) as [Hp|Hp].
    - pose proof (parse_replacement_field_safe A s p next out HA Hp) as H. rewrite HP in H. apply H.
    - exfalso. unfold parse_replacement_field, replacement_field in HP. rewrite decide_False in HP by lia.
      unfold get at 1 in HP. rewrite lookup_ge_None_2 in HP by lia. done.
  Qed.
  Lemma parses_safe A s p next out r : args_ok A -> parses s (parse_replacement_field custom E A s) p next out r -> safe r (fun out' => exists text, out' = out ++ text).
  Proof using HE Hcustom Hsep.
    intros HA H. induction H as [next out|p c next out r Hc H1 H2 H IH|p next out r Hc Hc' H IH|p next out Hc Hc'|p next out b next' out' r Hc HP H IH|p next out r Hc HP Hr].
    - exists []. by rewrite app_nil_r.
    - eapply safe_mono; [exact IH|]. intros o [t ->]. rewrite <- app_assoc. eauto.
    - eapply safe_mono; [exact IH|]. intros o [t ->]. rewrite <- app_assoc. eauto.
    - done.
    - pose proof (parse_replacement_field_safe A s p next out HA (lookup_lt_Some _ _ _ Hc)) as Hs. rewrite HP in Hs. destruct Hs as [_ [t ->]].
      eapply safe_mono; [exact IH|]. intros o [t' ->]. rewrite <- app_assoc. eauto.
    - pose proof (parse_replacement_field_safe A s p next out HA (lookup_lt_Some _ _ _ Hc)) as Hs. rewrite HP in Hs. destruct r as [x| | |]; try done.
  Qed.
  Lemma vformat_to_safe A s out : args_ok A -> safe (vformat_to custom E A s out) (fun out' => exists text, out' = out ++ text).
  Proof using HE Hcustom Hsep.
    intros HA. pose proof (progress_ok A s HA) as Hpr.
    destruct (parses_exists s (parse_replacement_field custom E A s) Hpr 0 0 out ltac:(lia)) as [r Hr].
    rewrite (vformat_to_ok custom E A s Hpr out r Hr). by eapply parses_safe.
  Qed.
End custom.

(** ** Sequences *)

Definition join_ok (j : join) : Prop := Forall (fun v => scalar_ok v /\ type_of v = j_type j) (j_elems j).
Lemma join_safe {C} (custom_ok : C -> Prop) E (A : args C) j s begin next out :
  env_ok E -> (length (sep E) <= 1)%nat -> args_ok custom_ok A -> join_ok j -> (begin <= length s)%nat ->
  safe (join_custom E A j s begin next out) (fun '(b, _, out') => (begin <= b <= length s)%nat /\ exists text, out' = out ++ text).
Proof.
  intros HE Hsep HA Hj Hb. unfold join_custom. apply safe_bind. eapply safe_mono; [by apply parse_format_specs_safe|].
  intros [[b sp] nx] [Hb' Hsp]. apply safe_bind. apply (safe_mono _ (fun _ => True)).
  { destruct (j_type j); try done. by destruct (check_char_specs_cases sp) as [->|[? ->]]. }
  intros _ _. apply safe_bind.
  apply (safe_mono _ (fun out' => exists text, out' = out ++ text)); [|intros o Ho; cbn; split; [lia|done]].
  apply (safe_for_up (fun _ out' => exists text, out' = out ++ text)); [exists []; by rewrite app_nil_r| |done].
  intros i o Hi1 Hi2 [text ->]. apply safe_bind, safe_get; [lia|]. intros v Hv.
  unfold join_ok in Hj. rewrite Forall_lookup in Hj. destruct (Hj _ _ Hv) as [Hvs Hvt].
  pose proof (dynamic_specs_ok custom_ok A _ sp HA Hsp) as Hd.
  destruct (handle_dynamic_spec A (width sp) (width_ref sp)) as [w| | |]; cbn [bind] in *; try done.
  destruct (handle_dynamic_spec A (precision sp) (precision_ref sp)) as [p| | |]; cbn [bind] in *; try done.
  eapply safe_mono; [apply write_value_safe; [done|done|done|by rewrite Hvt]|].
  intros o' [t ->]. destruct (decide _); rewrite <- ?app_assoc; eauto.
Qed.

Definition custom_value_ok (c : custom_value) : Prop :=
  match c with CJoin j => join_ok j | CSeq t elems => Forall (fun v => scalar_ok v /\ type_of v = t) elems end.
Lemma seq_custom_safe E : env_ok E -> (length (sep E) <= 1)%nat -> custom_safe seq_custom custom_value_ok E.
Proof.
  intros HE Hsep A c s begin next out HA Hc Hb. destruct c as [j|t elems]; cbn [seq_custom custom_value_ok] in *.
  - by eapply join_safe.
  - apply safe_bind.
    eapply safe_mono; [apply (vformat_to_safe join_custom join_ok E HE Hsep)|].
    + intros A' c' s' b' n' o' HA' Hc' Hb'. by eapply join_safe.
    + constructor; [|done]. done.
    + intros o Ho. cbn. split; [lia|done].
Qed.

(** Formatting returns, with text added to the output, or throws: nothing is read or written out of bounds. *)
Theorem vformat_safe E A s : env_ok E -> (length (sep E) <= 1)%nat -> args_ok custom_value_ok A -> safe (vformat E A s) (fun _ => True).
Proof.
  intros HE Hsep HA. unfold vformat. eapply safe_mono; [apply (vformat_to_safe _ custom_value_ok); [done|done|by apply seq_custom_safe|done]|done].
Qed.
