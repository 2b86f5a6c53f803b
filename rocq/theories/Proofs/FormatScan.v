(** The two loops over a format string, and the shortcut for {}, do the same. *)
From Verif Require Import Base.Cpp Model.Numeric Model.FmtInt Model.Utf8 Model.Escape Model.Format.
Set Default Proof Using "Type".
Local Open Scope Z_scope.

(** ** Slices *)

Lemma slice_nil s a : slice s a a = [].
Proof. unfold slice. by rewrite Nat.sub_diag, take_0. Qed.
Lemma slice_snoc s a p c : (a <= p)%nat -> s !! p = Some c -> slice s a (S p) = slice s a p ++ [c].
Proof.
  intros Ha Hp. unfold slice. replace (S p - a)%nat with (S (p - a)) by lia.
  apply take_S_r. rewrite lookup_drop. by replace (a + (p - a))%nat with p by lia.
Qed.
Lemma slice_cons s a p c : (a < p)%nat -> s !! a = Some c -> slice s a p = c :: slice s (S a) p.
Proof.
  intros Ha Hp. unfold slice. rewrite (drop_S s c a) by done. replace (p - a)%nat with (S (p - S a)) by lia. done.
Qed.
Lemma slice_end s a : slice s a (length s) = drop a s.
Proof. unfold slice. apply take_ge. rewrite drop_length. lia. Qed.
Lemma slice_lookup s a p i : (a + i < p)%nat -> slice s a p !! i = s !! (a + i)%nat.
Proof. intros H. unfold slice. rewrite lookup_take by lia. by rewrite lookup_drop. Qed.
Lemma slice_length s a p : (a <= p <= length s)%nat -> length (slice s a p) = (p - a)%nat.
Proof. intros H. unfold slice. rewrite take_length, drop_length. lia. Qed.

Lemma loop_S {S R} n (step : S -> res (S + R)) st :
  loop (Datatypes.S n) step st = let* o := step st in match o with inl s' => loop n step s' | inr r => Ok r end.
Proof. done. Qed.

Section scan.
  Context (s : list Z) (field : nat -> Z -> list Z -> res (nat * Z * list Z)).

  (** ** Reading the string from a position on, char by char *)

  Inductive parses : nat -> Z -> list Z -> res (list Z) -> Prop :=
  | parses_end next out : parses (length s) next out (Ok out)
  | parses_char p c next out r : s !! p = Some c -> c <> 123 -> c <> 125 -> parses (S p) next (out ++ [c]) r -> parses p next out r
  | parses_close p next out r : s !! p = Some 125 -> s !! S p = Some 125 -> parses (S (S p)) next (out ++ [125]) r -> parses p next out r
  | parses_lone p next out : s !! p = Some 125 -> s !! S p <> Some 125 -> parses p next out Throw
  | parses_field p next out b next' out' r : s !! p = Some 123 ->
      field p next out = Ok (b, next', out') -> parses b next' out' r -> parses p next out r
  | parses_error p next out r : s !! p = Some 123 ->
      field p next out = r -> (forall x, r <> Ok x) ->
      parses p next out (match r with Ok _ => Throw | Throw => Throw | UB k => UB k | Diverge => Diverge end).

  (** A field that is parsed ends after its start, in the string. *)
  Definition progress : Prop := forall p next out b next' out',
    field p next out = Ok (b, next', out') -> (p < b <= length s)%nat.

  Lemma parses_exists (Hpr : progress) p next out : (p <= length s)%nat -> exists r, parses p next out r.
  Proof.
    remember (length s - p)%nat as k. revert p next out Heqk. induction k as [k IH] using lt_wf_ind. intros p next out -> Hp.
    destruct (decide (p = length s)) as [->|Hne]; [eexists; constructor|].
    destruct (lookup_lt_is_Some_2 s p ltac:(lia)) as [c Hc].
    destruct (decide (c = 123)) as [->|H1].
    - destruct (field p next out) as [[[b next'] out']| | |] eqn:HP.
      + pose proof (Hpr _ _ _ _ _ _ HP) as Hb. destruct (IH (length s - b)%nat ltac:(lia) b next' out' eq_refl ltac:(lia)) as [r Hr].
        exists r. by eapply parses_field.
      + eexists. by eapply parses_error.
      + eexists. by eapply parses_error.
      + eexists. by eapply parses_error.
    - destruct (decide (c = 125)) as [->|H2].
      + destruct (decide (s !! S p = Some 125)) as [Hn|Hn]; [|eexists; by eapply parses_lone].
        pose proof (lookup_lt_Some _ _ _ Hn).
        destruct (IH (length s - S (S p))%nat ltac:(lia) (S (S p)) next (out ++ [125]) eq_refl ltac:(lia)) as [r Hr].
        exists r. by eapply parses_close.
      + destruct (IH (length s - S p)%nat ltac:(lia) (S p) next (out ++ [c]) eq_refl ltac:(lia)) as [r Hr].
        exists r. by eapply parses_char.
  Qed.

  (** ** The loop for short strings *)

  Lemma scan_short_ok (Hpr : progress) out r : parses 0 0 out r -> scan_short s field out = r.
  Proof.
    intros H. unfold scan_short. set (step := fun _ => _).
    assert (Hl : forall p next out r, parses p next out r -> forall begin out0 n, (p <= length s)%nat -> (begin <= p)%nat ->
      out = out0 ++ slice s begin p -> (length s - p < n)%nat ->
      (let* (begin, out) := loop n step (begin, p, next, out0) in Ok (out ++ slice s begin (length s))) = r).
    { clear H out r. intros p next out r H.
      induction H as [next out|p c next out r Hc H1 H2 H IH|p next out r Hc Hc' H IH|p next out Hc Hc'|p next out b next' out' r Hc HP H IH|p next out r Hc HP Hr];
        intros begin out0 n Hp Hb Hout Hn; (destruct n as [|n]; [lia|]); rewrite loop_S; unfold step at 1.
      - rewrite decide_True by done. cbn [bind]. by rewrite Hout.
      - pose proof (lookup_lt_Some _ _ _ Hc). rewrite decide_False by lia. unfold get. rewrite Hc. cbn [bind].
        rewrite !decide_False by done. cbn [bind]. apply IH; [lia|lia| |lia]. rewrite (slice_snoc s begin p c) by (done || lia).
        by rewrite Hout, app_assoc.
      - pose proof (lookup_lt_Some _ _ _ Hc). pose proof (lookup_lt_Some _ _ _ Hc'). rewrite decide_False by lia. unfold get. rewrite Hc. cbn [bind].
        rewrite decide_False, decide_True, decide_False by (done || lia). rewrite Hc'. cbn [bind]. rewrite decide_False by (intros []; done). cbn [bind].
        apply IH; [lia|lia| |lia]. rewrite slice_nil, app_nil_r. rewrite (slice_snoc s begin p 125) by (done || lia). by rewrite Hout, app_assoc.
      - pose proof (lookup_lt_Some _ _ _ Hc). rewrite decide_False by lia. unfold get. rewrite Hc. cbn [bind].
        rewrite decide_False, decide_True by done. destruct (decide (S p = length s)) as [He|He]; [done|].
        destruct (lookup_lt_is_Some_2 s (S p) ltac:(lia)) as [c Hc2]. rewrite Hc2. cbn [bind].
        rewrite decide_True; [done|]. intros ->. done.
      - pose proof (lookup_lt_Some _ _ _ Hc). rewrite decide_False by lia. unfold get. rewrite Hc. cbn [bind].
        rewrite decide_True by done. replace (S p - 1)%nat with p by lia. rewrite <- Hout, HP. cbn [bind].
        pose proof (Hpr _ _ _ _ _ _ HP). apply IH; [lia|lia| |lia]. by rewrite slice_nil, app_nil_r.
      - pose proof (lookup_lt_Some _ _ _ Hc). rewrite decide_False by lia. unfold get. rewrite Hc. cbn [bind].
        rewrite decide_True by done. replace (S p - 1)%nat with p by lia. rewrite <- Hout, HP. destruct r as [x| | |]; [by destruct (Hr x)|done..]. }
    apply (Hl _ _ _ _ H); [lia|lia|by rewrite slice_nil, app_nil_r|lia].
  Qed.

  (** ** The loop for long strings *)

  (** Text without fields. *)
  Fixpoint unbrace (l : list Z) : option (list Z) :=
    match l with
    | [] => Some []
    | c :: l' =>
        if decide (c = 125) then match l' with 125 :: l'' => cons 125 <$> unbrace l'' | _ => None end
        else cons c <$> unbrace l'
    end.

  Lemma unbrace_lone c l : c <> 125 -> unbrace (125 :: c :: l) = None.
  Proof. intros Hc. cbn [unbrace]. rewrite decide_True by done. destruct c as [|q|q]; [done| |done]. repeat (destruct q as [q|q|]; try done). Qed.

  Lemma unbrace_parses to next : (to = length s \/ s !! to = Some 123) -> (to <= length s)%nat ->
    forall from out r, (from <= to)%nat -> (forall i, (from <= i < to)%nat -> s !! i <> Some 123) ->
    parses from next out r -> match unbrace (slice s from to) with Some t => parses to next (out ++ t) r | None => r = Throw end.
  Proof.
    intros Hto Hlen from. remember (to - from)%nat as k. revert from Heqk.
    induction k as [k IH] using lt_wf_ind. intros from -> out r Hle Hno H.
    destruct (decide (from = to)) as [->|Hne]; [rewrite slice_nil; cbn; by rewrite app_nil_r|].
    destruct (lookup_lt_is_Some_2 s from ltac:(lia)) as [c Hc].
    rewrite (slice_cons s from to c) by (done || lia). cbn [unbrace].
    assert (Hc' : c <> 123) by (intros ->; by apply (Hno from); [lia|]).
    destruct (decide (c = 125)) as [->|H2].
    - destruct (decide (s !! S from = Some 125)) as [Hn|Hn].
      + assert (S from < to)%nat.
        { pose proof (lookup_lt_Some _ _ _ Hn). destruct Hto as [->|Hto]; [done|]. destruct (decide (S from = to)) as [Heq|]; [|lia]. by rewrite Heq, Hto in Hn. }
        rewrite (slice_cons s (S from) to 125) by (done || lia).
        pose proof (lookup_lt_Some _ _ _ Hc). inversion H; subst; try congruence; try lia.
        specialize (IH (to - S (S from))%nat ltac:(lia) (S (S from)) eq_refl (out ++ [125]) r ltac:(lia)).
        specialize (IH ltac:(intros i Hi; apply Hno; lia) ltac:(done)).
        destruct (unbrace (slice s (S (S from)) to)); cbn; [|done]. by rewrite <- app_assoc in IH.
      + assert (Hr : r = Throw).
        { pose proof (lookup_lt_Some _ _ _ Hc). inversion H; subst; try congruence; lia. }
        destruct (slice s (S from) to) as [|c' l] eqn:Hsl; [done|].
        assert (Hc2 : s !! S from = Some c').
        { assert (S from < to)%nat by (apply (f_equal length) in Hsl; rewrite slice_length in Hsl by lia; cbn in Hsl; lia).
          pose proof (slice_lookup s (S from) to 0 ltac:(lia)) as Hs. rewrite Hsl, Nat.add_0_r in Hs. done. }
        assert (c' <> 125) by congruence.
        destruct c' as [|q|q]; [done| |done]. repeat (destruct q as [q|q|]; try done).
    - pose proof (lookup_lt_Some _ _ _ Hc). inversion H; subst; try congruence; try lia.
      match goal with H : s !! from = Some ?x |- _ => rewrite Hc in H; injection H as <- end.
      specialize (IH (to - S from)%nat ltac:(lia) (S from) eq_refl (out ++ [c]) r ltac:(lia)).
      specialize (IH ltac:(intros i Hi; apply Hno; lia) ltac:(done)).
      destruct (unbrace (slice s (S from) to)); cbn; [|done]. by rewrite <- app_assoc in IH.
  Qed.

  Lemma find_char_spec first last c : (last <= length s)%nat ->
    match find_char s first last c with
    | Some p => (first <= p < last)%nat /\ s !! p = Some c /\ forall i, (first <= i < p)%nat -> s !! i <> Some c
    | None => forall i, (first <= i < last)%nat -> s !! i <> Some c
    end.
  Proof.
    intros Hl. unfold find_char. destruct (list_find _ _) as [[i x]|] eqn:Hf; cbn.
    - apply list_find_Some in Hf as (Hi & -> & Hno).
      assert (first + i < last)%nat by (apply lookup_lt_Some in Hi; unfold slice in Hi; rewrite take_length, drop_length in Hi; lia).
      split; [lia|]. rewrite slice_lookup in Hi by lia. split; [done|]. intros j Hj He.
      apply (Hno (j - first)%nat c); [|lia|done]. rewrite slice_lookup by lia. by replace (first + (j - first))%nat with j by lia.
    - apply list_find_None in Hf. intros i Hi He. rewrite Forall_forall in Hf. apply (Hf c); [|done].
      apply elem_of_list_lookup. exists (i - first)%nat. rewrite slice_lookup by lia. by replace (first + (i - first))%nat with i by lia.
  Qed.

  Lemma unbrace_cons_other c l : c <> 125 -> unbrace (c :: l) = cons c <$> unbrace l.
  Proof. intros Hc. cbn [unbrace]. by rewrite decide_False. Qed.
  Lemma unbrace_app xs l : Forall (fun c => c <> 125) xs -> unbrace (xs ++ l) = app xs <$> unbrace l.
  Proof.
    induction 1 as [|c xs Hc Hxs IH]; [cbn; by destruct (unbrace l)|]. cbn [app]. rewrite unbrace_cons_other by done. rewrite IH. by destruct (unbrace l).
  Qed.
  Lemma write_text_ok from to out : (from <= to <= length s)%nat ->
    write_text s from to out = match unbrace (slice s from to) with Some t => Ok (out ++ t) | None => Throw end.
  Proof.
    intros [Hft Hlen]. unfold write_text. destruct (decide (from = to)) as [->|Hne]; [rewrite slice_nil; cbn; by rewrite app_nil_r|].
    clear Hne. set (step := fun _ => _).
    assert (Hl : forall n from out, (from <= to)%nat -> (to - from < n)%nat ->
      loop n step (from, out) = match unbrace (slice s from to) with Some t => Ok (out ++ t) | None => Throw end).
    2: { apply Hl; lia. }
    clear from out Hft. induction n as [|n IH]; intros from out Hft Hn; [lia|]. rewrite loop_S. unfold step at 1.
    pose proof (find_char_spec from to 125) as Hf. destruct (find_char s from to 125) as [p|]; cbn [bind].
    - specialize (Hf Hlen) as (Hp & Hc & Hno).
      assert (Hsl : slice s from to = slice s from p ++ 125 :: slice s (S p) to).
      { rewrite <- (slice_cons s p to 125) by (done || lia). unfold slice.
        rewrite <- (take_drop (p - from) (take (to - from) (drop from s))). rewrite take_take, Nat.min_l by lia. f_equal.
        rewrite skipn_firstn_comm, drop_drop. f_equal; [lia|f_equal; lia]. }
      rewrite Hsl. rewrite unbrace_app.
      2: { apply Forall_lookup. intros i x Hi. assert (from + i < p)%nat by (apply lookup_lt_Some in Hi; unfold slice in Hi; rewrite take_length in Hi; lia).
           rewrite slice_lookup in Hi by lia. intros ->. by apply (Hno (from + i)%nat); [lia|]. }
      destruct (decide (S p = to)) as [He|He]; [by rewrite He, slice_nil|].
      destruct (lookup_lt_is_Some_2 s (S p) ltac:(lia)) as [c' Hc']. unfold get. rewrite Hc'. cbn [bind].
      rewrite (slice_cons s (S p) to c') by (done || lia).
      destruct (decide (c' = 125)) as [->|Hc2].
      + rewrite decide_False by (intros []; done). cbn [bind]. rewrite IH by lia.
        cbn [unbrace]. rewrite decide_True by done.
        rewrite (slice_snoc s from p 125) by (done || lia).
        destruct (unbrace (slice s (S (S p)) to)); cbn; [|done]. by rewrite <- !app_assoc.
      + rewrite decide_True by done. cbn [bind]. by rewrite unbrace_lone.
    - specialize (Hf Hlen). rewrite <- (app_nil_r (slice s from to)) at 2. rewrite unbrace_app; [cbn; by rewrite app_nil_r|].
      apply Forall_lookup. intros i x Hi. assert (from + i < to)%nat by (apply lookup_lt_Some in Hi; unfold slice in Hi; rewrite take_length in Hi; lia).
      rewrite slice_lookup in Hi by lia. intros ->. by apply (Hf (from + i)%nat); [lia|].
  Qed.

  Lemma scan_long_ok (Hpr : progress) out r : parses 0 0 out r -> scan_long s field out = r.
  Proof.
    intros H. unfold scan_long. set (step := fun _ => _).
    assert (Hl : forall n p next out r, (p <= length s)%nat -> (length s - p < n)%nat -> parses p next out r -> loop n step (p, next, out) = r).
    2: { apply Hl; [lia|lia|done]. }
    clear H out r. induction n as [|n IH]; intros p next out r Hp Hn H; [lia|]. rewrite loop_S. unfold step at 1.
    destruct (decide (p = length s)) as [->|Hne].
    { cbn [bind]. inversion H; subst; try done; match goal with H : s !! length s = _ |- _ => apply lookup_lt_Some in H; lia end. }
    destruct (lookup_lt_is_Some_2 s p ltac:(lia)) as [c Hc]. unfold get. rewrite Hc. cbn [bind].
    assert (Hfield : forall q out, (p <= q)%nat -> s !! q = Some 123 -> parses q next out r ->
      (let* o := (let* (begin, next, out) := field q next out in Ok (inl (begin, next, out))) in
       match o with inl st => loop n step st | inr r => Ok r end) = r).
    { clear H out. intros q out Hpq Hq H. pose proof (lookup_lt_Some _ _ _ Hq).
      inversion H; subst; try congruence; try lia.
      - match goal with HP : field _ _ _ = Ok _ |- _ => rewrite HP; pose proof (Hpr _ _ _ _ _ _ HP) end.
        cbn [bind]. apply IH; [lia|lia|done].
      - destruct (field q next out) as [x| | |]; [|done..]. exfalso. naive_solver. }
    destruct (decide (c = 123)) as [->|H1].
    - rewrite decide_False by (intros []; done). rewrite write_text_ok by lia. rewrite slice_nil. cbn [unbrace bind]. rewrite app_nil_r.
      by apply Hfield.
    - rewrite decide_True by done. pose proof (find_char_spec (S p) (length s) 123 ltac:(lia)) as Hf.
      destruct (find_char s (S p) (length s) 123) as [q|].
      + destruct Hf as (Hq & Hcq & Hno). rewrite write_text_ok by lia.
        pose proof (unbrace_parses q next (or_intror Hcq) ltac:(lia) p out r ltac:(lia)) as Hu.
        destruct (unbrace (slice s p q)) as [t|]; cbn [bind].
        * apply Hfield; [lia|done|]. apply Hu; [|done]. intros i Hi. destruct (decide (i = p)) as [->|]; [congruence|apply Hno; lia].
        * symmetry. apply Hu; [|done]. intros i Hi. destruct (decide (i = p)) as [->|]; [congruence|apply Hno; lia].
      + rewrite write_text_ok by lia.
        pose proof (unbrace_parses (length s) next (or_introl eq_refl) ltac:(lia) p out r ltac:(lia)) as Hu.
        destruct (unbrace (slice s p (length s))) as [t|]; cbn [bind].
        * feed specialize Hu; [|done|].
          { intros i Hi. destruct (decide (i = p)) as [->|]; [congruence|apply Hf; lia]. }
          inversion Hu; subst; try done; match goal with H : s !! length s = _ |- _ => apply lookup_lt_Some in H; lia end.
        * symmetry. apply Hu; [|done]. intros i Hi. destruct (decide (i = p)) as [->|]; [congruence|apply Hf; lia].
  Qed.

  (** Whichever loop is used. *)
  Lemma scan_string_ok (Hpr : progress) out r : parses 0 0 out r -> scan_string s field out = r.
  Proof. intros H. unfold scan_string. destruct (decide _); [by apply scan_short_ok|by apply scan_long_ok]. Qed.
End scan.

Section custom.
  Context {C : Type} (custom : env -> args C -> C -> list Z -> nat -> Z -> list Z -> res (nat * Z * list Z)).
  Context (E : env) (A : args C) (s : list Z).
  Notation progress := (progress s (parse_replacement_field custom E A s)).
  Notation parses := (parses s (parse_replacement_field custom E A s)).
  (** For {} without any loop. *)
  Theorem vformat_to_ok (Hpr : progress) out r : parses 0 0 out r -> vformat_to custom E A s out = r.
  Proof.
    intros H. unfold vformat_to. destruct (decide (s = [123; 125])) as [Hs|Hs].
    - assert (HP : parse_replacement_field custom E A s 0 0 out = let* a := get_arg A 0 in let* out := write_arg_default custom E A out a in Ok (2%nat, 1, out)).
      { unfold parse_replacement_field, replacement_field. rewrite Hs. cbn [length]. rewrite decide_False by done. cbn -[get_arg write_arg_default].
        rewrite decide_True by done. unfold next_arg_id. rewrite decide_False by lia. cbn [bind]. unfold on_replacement_field. by destruct (get_arg A 0). }
      assert (H0 : s !! 0%nat = Some 123) by (by rewrite Hs).
      assert (H2 : length s = 2%nat) by (by rewrite Hs). clear Hs.
      destruct (get_arg A 0) as [a| | |]; cbn [bind] in *.
      2-4: by inversion H; subst; try (congruence || lia); rewrite HP.
      destruct (write_arg_default custom E A out a) as [o| | |]; cbn [bind] in *.
      2-4: by inversion H; subst; try (congruence || lia); rewrite HP.
      inversion H as [| | | |p' n' o' b n1 o1 r' Hc HP' Hr|]; subst; try (congruence || lia).
      rewrite HP in HP'. injection HP' as <- <- <-.
      inversion Hr; subst; try done; try lia; match goal with H : s !! 2%nat = _ |- _ => apply lookup_lt_Some in H; lia end.
    - by apply scan_string_ok.
  Qed.
End custom.
