(** Fields are parsed to their specs. *)
From Verif Require Import Base.Cpp Model.Numeric Model.FmtInt Model.Utf8 Model.Escape Model.Format.
From Verif Require Import Spec.FormatSpec Spec.Utf8Spec Spec.EscapeSpec Spec.FieldSpec Spec.TemplateSpec.
From Verif Require Import Proofs.FmtIntProofs Proofs.Utf8Decode Proofs.Utf8Proofs Proofs.EscapeProofs Proofs.FormatWrite Proofs.GroupingProofs.
From Verif Require Import Proofs.FormatValue Proofs.FormatScan Proofs.FormatSafe.
Set Default Proof Using "Type".
Local Open Scope Z_scope.
Ltac Zify.zify_post_hook ::= idtac.

(** ** Suffixes *)

Lemma drop_head (s : list Z) p c t : drop p s = c :: t -> s !! p = Some c.
Proof. intros H. pose proof (lookup_drop s p 0) as Hl. rewrite H, Nat.add_0_r in Hl. done. Qed.
Lemma drop_next (s : list Z) p c t : drop p s = c :: t -> drop (S p) s = t.
Proof. intros H. replace (S p) with (p + 1)%nat by lia. rewrite <- drop_drop, H. done. Qed.
Lemma drop_after (s : list Z) p a t : drop p s = a ++ t -> drop (p + length a) s = t.
Proof. intros H. by rewrite <- drop_drop, H, drop_app. Qed.
Lemma drop_lt (s : list Z) p c t : drop p s = c :: t -> (p < length s)%nat.
Proof. intros H. by apply drop_head, lookup_lt_Some in H. Qed.
Lemma get_head (s : list Z) p c t : drop p s = c :: t -> get s p = Ok c.
Proof. intros H. unfold get. by rewrite (drop_head s p c t). Qed.

(** ** Numbers and argument ids *)

Lemma numeral_int i t : numeral 10 false i t -> 0 <= i <= int_max ->
  exists ds, t = digit_char false <$> ds /\ Forall (fun d => 0 <= d < 10) ds /\ ds <> [] /\ (head ds = Some 0 -> ds = [0]) /\
    number 10 ds = i /\ forall e, parsed_number e ds = i.
Proof.
  intros (ds & -> & Hf & Hn & Hne & Hz) Hi. exists ds. split_and!; try done. intros e. unfold parsed_number. rewrite decide_True; [done|].
  split; [|lia]. pose proof (digits_of_ndigits 10 i ds ltac:(lia) (conj Hf (conj Hn (conj Hne Hz)))) as (_ & _ & [H|H]); [lia|].
  destruct (decide (length ds <= 10)%nat); [done|]. assert (10 ^ 10 <= 10 ^ (Z.of_nat (length ds) - 1)) by (apply Z.pow_le_mono_r; lia).
  unfold int_max in *. change (10 ^ 10) with 10000000000 in *. lia.
Qed.
Lemma digit_char_is_digit d : 0 <= d < 10 -> is_digit (digit_char false d) = true.
Proof. intros Hd. unfold is_digit, digit_char. rewrite decide_True by lia. apply andb_true_iff. rewrite !Z.leb_le. lia. Qed.
Lemma digit_char_eq d : 0 <= d < 10 -> digit_char false d = 48 + d.
Proof. intros Hd. unfold digit_char. by rewrite decide_True by lia. Qed.

Definition id_of (w : which) : arg_id := match w with NextArg => Auto | ArgAt i => Index i | Named n => Name n end.

Lemma letter_name c : letter c -> is_name_start c = true /\ is_digit c = false /\ c <> 125 /\ c <> 58 /\ c <> 123.
Proof.
  unfold letter, is_name_start, is_digit. intros H. split_and!; lia.
Qed.
Lemma name_char c : letter c \/ 48 <= c <= 57 -> is_name_start c || is_digit c = true.
Proof.
  intros [H|H]; [by destruct (letter_name c H) as [-> _]|]. apply orb_true_iff. right. unfold is_digit. apply andb_true_iff. rewrite !Z.leb_le. lia.
Qed.

Lemma numeral_large i t : numeral 10 false i t -> int_max < i ->
  exists ds, t = digit_char false <$> ds /\ Forall (fun d => 0 <= d < 10) ds /\ ds <> [] /\ (head ds = Some 0 -> ds = [0] /\ int_max = 0) /\
    parsed_number max_int ds = int_max.
Proof.
  intros (ds & -> & Hf & Hn & Hne & Hz) Hi. exists ds. split_and!; try done.
  - intros Hh. specialize (Hz Hh). subst ds. cbn in Hn. unfold int_max in Hi. lia.
  - unfold parsed_number. rewrite decide_False; [done|]. lia.
Qed.
Lemma numeral_index i t : numeral 10 false i t -> 0 <= i <= int_max ->
  exists ds, t = digit_char false <$> ds /\ Forall (fun d => 0 <= d < 10) ds /\ ds <> [] /\ (head ds = Some 0 -> ds = [0] /\ i = 0) /\
    parsed_number max_int ds = i.
Proof.
  intros H Hi. destruct (numeral_int i t H Hi) as (ds & -> & Hf & Hne & Hz & Hn & Hp). exists ds. split_and!; try done.
  intros Hh. specialize (Hz Hh). subst ds. cbn in Hn. by subst.
Qed.
Lemma index_ok s p i t c rest : (exists ds, t = digit_char false <$> ds /\ Forall (fun d => 0 <= d < 10) ds /\ ds <> [] /\ (head ds = Some 0 -> ds = [0] /\ i = 0) /\
    parsed_number max_int ds = i) -> drop p s = t ++ c :: rest -> c = 125 \/ c = 58 -> parse_arg_id s p = Ok ((p + length t)%nat, Index i).
Proof.
  intros (ds & -> & Hf & Hne & Hz & Hp) Hs Hc. unfold parse_arg_id. destruct ds as [|d ds]; [done|].
  pose proof Hf as [Hd Hf']%Forall_cons. rewrite fmap_cons in *. cbn [app] in Hs. rewrite (get_head _ _ _ _ Hs). cbn [bind].
  rewrite decide_True by (rewrite digit_char_eq by done; lia). rewrite digit_char_is_digit by done.
    assert (Hidx : (if decide (digit_char false d <> 48) then parse_nonnegative_int s p max_int else Ok (S p, 0)) = Ok ((p + S (length ds))%nat, i)).
    { destruct (decide (d = 0)) as [->|Hd0].
      - rewrite decide_False by (rewrite digit_char_eq by lia; lia). destruct (Hz eq_refl) as [[= ->] ->]. cbn. do 2 f_equal. lia.
      - rewrite decide_True by (rewrite digit_char_eq by done; lia).
        rewrite (parse_nonnegative_int_ok s p max_int (d :: ds) (c :: rest)); [by rewrite Hp|done|done|done|].
        intros c' [= <-]. unfold is_digit. destruct Hc as [->| ->]; done. }
  rewrite Hidx. cbn [bind]. apply (drop_after s p (digit_char false d :: (digit_char false <$> ds)) (c :: rest)) in Hs.
    cbn [length] in *. rewrite fmap_length in *. pose proof (drop_lt _ _ _ _ Hs). rewrite decide_False by lia. rewrite (get_head _ _ _ _ Hs). cbn [bind].
    rewrite decide_False by lia. done.
Qed.

Lemma parse_arg_id_ok s p w t c rest : which_ok w -> which_text w t -> drop p s = t ++ c :: rest -> c = 125 \/ c = 58 ->
  parse_arg_id s p = Ok ((p + length t)%nat, id_of w).
Proof.
  intros Hw Ht Hs Hc. destruct Ht as [|i t Hi|i t Hi Hlarge|name]; cbn [app id_of length] in *; [unfold parse_arg_id|..|unfold parse_arg_id].
  - rewrite (get_head _ _ _ _ Hs). cbn [bind]. rewrite decide_False by lia. by rewrite Nat.add_0_r.
  - by apply (index_ok s p i t c rest (numeral_index i t Hi Hw)).
  - by apply (index_ok s p int_max t c rest (numeral_large i t Hi Hlarge)).
  - destruct name as [|n0 name]; [done|]. destruct Hw as [Hn0 Hname]. cbn [app] in Hs. rewrite (get_head _ _ _ _ Hs). cbn [bind].
    destruct (letter_name n0 Hn0) as (H1 & H2 & H3 & H4 & _). rewrite decide_True by done. rewrite H2, H1.
    set (body := loop _ _ _). assert (Hbody : body = Ok (p + S (length name))%nat).
    { cut (wp body (fun r => r = (p + S (length name))%nat)); [by intros (? & -> & ->)|].
      pose proof (drop_after s p (n0 :: name) (c :: rest) Hs) as Hs'. cbn [length] in Hs'. pose proof (drop_lt _ _ _ _ Hs').
      apply (wp_loop (fun it => exists i, (it = p + i)%nat /\ (i <= length name)%nat) (fun it => (length s - it)%nat)); [lia|exists 0%nat; lia|].
      intros it (i & -> & Hi). rewrite decide_False by lia. replace (S (p + i))%nat with (p + S i)%nat by lia.
      destruct (decide (i = length name)) as [->|Hne].
      - rewrite (get_head _ _ _ _ Hs'). cbn [bind]. replace (is_name_start c || is_digit c) with false by (by destruct Hc as [->| ->]). by apply wp_ok.
      - destruct (lookup_lt_is_Some_2 name i ltac:(lia)) as [x Hx].
        assert (Hsx : s !! (p + S i)%nat = Some x) by (rewrite <- lookup_drop, Hs; cbn; by apply lookup_app_l_Some).
        unfold get. rewrite Hsx. cbn [bind]. rewrite Forall_lookup in Hname. rewrite name_char by (by eapply Hname). apply wp_ok.
        split; [exists (S i); lia|]. apply lookup_lt_Some in Hsx. lia. }
    rewrite Hbody. cbn [bind length]. do 2 f_equal. unfold slice. rewrite Hs. replace (p + S (length name) - p)%nat with (length (n0 :: name)) by (cbn; lia).
    f_equal. by rewrite (app_comm_cons name), take_app.
Qed.

(** ** Widths and precisions *)

(** The value and the reference of a count, and the next id. *)
Definition count_res (c : count) (next : Z) : res (option Z * option ref * Z) :=
  match c with
  | NoCount | Bare => Ok (None, None, next)
  | Number n => Ok (Some n, None, next)
  | OfArg w => let* (r, next) := dynamic_id (id_of w) next in Ok (None, Some r, next)
  end.

Lemma numeral_head n t : numeral 10 false n t -> exists d t', t = digit_char false d :: t' /\ 0 <= d < 10 /\ (1 <= n -> d <> 0).
Proof.
  intros (ds & -> & Hf & Hn & Hne & Hz). destruct ds as [|d ds]; [done|]. apply Forall_cons in Hf as [Hd _].
  exists d, (digit_char false <$> ds). rewrite fmap_cons. split_and!; [done|lia|lia|]. intros H1 ->. specialize (Hz eq_refl). injection Hz as ->.
  cbn in Hn. lia.
Qed.

Lemma parse_dynamic_spec_ok s p least c t next x rest : count_ok least c -> 0 <= least -> c <> NoCount -> count_text c t ->
  drop p s = t ++ x :: rest -> is_digit x = false ->
  parse_dynamic_spec s p next = let* (v, r, next') := count_res c next in Ok ((p + length t)%nat, v, r, next').
Proof.
  intros Hok Hl Hne Ht Hs Hx. unfold parse_dynamic_spec. destruct c as [|n|w|]; [done| | |by inversion Ht]; cbn [count_res].
  - inversion Ht as [|? ? Hn|]; subst. cbn in Hok. destruct (numeral_int n t Hn ltac:(lia)) as (ds & -> & Hf & Hne' & Hz & Hnum & Hp).
    destruct ds as [|d ds]; [done|]. pose proof Hf as [Hd Hf']%Forall_cons. rewrite fmap_cons in *. cbn [app] in Hs. rewrite (get_head _ _ _ _ Hs). cbn [bind].
    rewrite digit_char_is_digit by done. rewrite (parse_nonnegative_int_ok s p (-1) (d :: ds) (x :: rest)); [|done|done|done|].
    + rewrite Hp. cbn [bind]. rewrite decide_True by lia. cbn [length]. by rewrite fmap_length.
    + by intros ? [= <-].
  - inversion Ht as [| |? i Hi]; subst. cbn [app] in Hs. rewrite (get_head _ _ _ _ Hs). cbn [bind]. rewrite decide_True by done.
    change (is_digit 123) with false. cbn [bind]. pose proof (drop_next _ _ _ _ Hs) as Hs'. rewrite <- app_assoc in Hs'. cbn [app] in Hs'.
    assert (S p < length s)%nat.
    { destruct (i ++ 125 :: x :: rest) as [|y l] eqn:Hy; [by destruct i|]. by apply (drop_lt s (S p) y l). }
    rewrite decide_False by lia. rewrite (parse_arg_id_ok s (S p) w i 125 (x :: rest)) by (done || by left). cbn [bind].
    destruct (dynamic_id (id_of w) next) as [[r next']| | |]; cbn [bind]; [|done..].
    pose proof (drop_after s (S p) i _ Hs') as Hs2. pose proof (drop_lt _ _ _ _ Hs2). rewrite decide_False by lia.
    rewrite (get_head _ _ _ _ Hs2). cbn [bind]. rewrite decide_True by done. do 5 f_equal. cbn [length app]. rewrite app_length. cbn. lia.
Qed.

(** ** The loop over the specs *)

Inductive ends {S R} (step : S -> res (S + R)) : S -> res R -> Prop :=
| ends_ok st r : step st = Ok (inr r) -> ends step st (Ok r)
| ends_throw st : step st = Throw -> ends step st Throw
| ends_step st st' r : step st = Ok (inl st') -> ends step st' r -> ends step st r.
Lemma ends_loop {S R} (step : S -> res (S + R)) st r n : ends step st r -> loop n step st = Diverge \/ loop n step st = r.
Proof.
  intros H. revert n. induction H as [st r H|st H|st st' r H _ IH]; intros [|n]; cbn [loop]; auto; rewrite H; cbn [bind]; auto.
Qed.

Lemma enter_state_ok cur st : (cur < st)%nat -> enter_state cur st true = Ok st.
Proof. intros H. unfold enter_state. rewrite decide_False; [done|]. intros [?|?]; [lia|done]. Qed.
Lemma enter_state_throw cur st : enter_state cur st false = Throw.
Proof. unfold enter_state. rewrite decide_True; [done|by right]. Qed.
Lemma continue_ok s p c l st sp next : drop p s = c :: l -> continue_at s p st sp next = Ok (inl (p, c, st, sp, next)).
Proof. intros H. unfold continue_at. pose proof (drop_lt _ _ _ _ H). rewrite decide_False by lia. by rewrite (get_head _ _ _ _ H). Qed.

Ltac dec := repeat match goal with
  | |- context [decide ?P] => first [rewrite (decide_False (P := P)) by lia | rewrite (decide_True (P := P)) by lia]
  end.

Lemma count_res_cases c next : (exists v r next', count_res c next = Ok (v, r, next')) \/ count_res c next = Throw.
Proof.
  destruct c as [|n|[|i|n]|]; cbn; eauto; [unfold next_arg_id|unfold check_arg_id]; destruct (decide _); cbn; eauto.
Qed.
Global Instance count_none_dec c : Decision (c = NoCount).
Proof. destruct c; (by left) || (by right). Defined.

Definition kind_of_ty (t : ty) : kind := match t with TSInt => KInt | TUInt => KUnsigned | TBool => KBool | TChar => KChar | TStr => KString | TFloat | TDouble => KFloat | TCstr => KCstring | TPtr => KPointer end.
(** The types that may have a sign, and a precision. *)
Definition takes_sign (t : ty) : bool := match t with TSInt => true | _ => is_floating t end.
Definition takes_precision (t : ty) : bool := match t with TStr | TCstr => true | _ => is_floating t end.

Section fields.
  Context (s : list Z) (t : ty) (f : field) (wt pt rest : list Z).
  Context (Hok : field_ok f).
  Context (Hwt : count_text (f_width f) wt) (Hpt : precision_text (f_precision f) pt).

  Definition tail7 : list Z := type_text (f_type f) ++ 125 :: rest.
  Definition tail6 : list Z := flag_text (f_local f) 76 ++ tail7.
  Definition tail5 : list Z := pt ++ tail6.
  Definition tail4 : list Z := wt ++ tail5.
  Definition tail3 : list Z := flag_text (f_zero f) 48 ++ tail4.
  Definition tail2 : list Z := flag_text (f_alternate f) 35 ++ tail3.
  Definition tail1 : list Z := sign_option_text (f_sign f) ++ tail2.
  (** Where the field ends. *)
  Definition the_end : nat := (length s - S (length rest))%nat.
  Lemma the_end_eq p : drop p s = 125 :: rest -> p = the_end.
  Proof. intros H. pose proof (drop_lt _ _ _ _ H). apply (f_equal length) in H. rewrite drop_length in H. cbn in H. unfold the_end. lia. Qed.

  Lemma head7 : exists c l, tail7 = c :: l /\ is_digit c = false.
  Proof using Type. unfold tail7. destruct (f_type f) as [[[| |[]|[]]| | | |[] []|]|]; cbn; eauto. Qed.
  Lemma head6 : exists c l, tail6 = c :: l /\ is_digit c = false.
  Proof using Type. unfold tail6. destruct (f_local f); cbn; [eauto|]. apply head7. Qed.
  Lemma head5 : exists c l, tail5 = c :: l /\ is_digit c = false.
  Proof using Hpt. unfold tail5. destruct Hpt; cbn; [eauto..| |eauto]. apply head6. Qed.
  Lemma head4 : exists c l, tail4 = c :: l.
  Proof using Hpt Hwt. unfold tail4. destruct wt; cbn; [|eauto]. destruct head5 as (c & l & -> & _). eauto. Qed.
  Lemma head3 : exists c l, tail3 = c :: l.
  Proof using Hpt Hwt. unfold tail3. destruct (f_zero f); cbn; [eauto|]. apply head4. Qed.
  Lemma head2 : exists c l, tail2 = c :: l.
  Proof using Hpt Hwt. unfold tail2. destruct (f_alternate f); cbn; [eauto|]. apply head3. Qed.
  Lemma head1 : exists c l, tail1 = c :: l.
  Proof using Hpt Hwt. unfold tail1. destruct (f_sign f) as [[]|]; cbn; eauto. apply head2. Qed.

  (** What the parser gives, from each part of the field on. *)
  Definition type_fits : bool :=
    match f_type f, t with
    | None, _ => true
    | Some (InBase _ | AsChar), _ => is_integral t
    | Some AsString, (TBool | TStr | TCstr) => true
    | Some AsString, _ => false
    | Some AsDebug, (TChar | TStr | TCstr) => true
    | Some AsDebug, _ => false
    | Some (AsFloat _ _), _ => is_floating t
    | Some AsPointer, (TCstr | TPtr) => true
    | Some AsPointer, _ => false
    end.
  Definition out := res (nat * specs * Z).
  Definition out7 (sp : specs) (next : Z) : out :=
    if type_fits then Ok (the_end, match f_type f with None => sp | ty => set_typ sp (pres_of ty) end, next) else Throw.
  Definition out6 (sp : specs) (next : Z) : out :=
    if f_local f then if is_arithmetic t then out7 (set_localized sp true) next else Throw else out7 sp next.
  Definition out5 (sp : specs) (next : Z) : out :=
    match f_precision f with
    | NoCount => out6 sp next
    | c =>
        if takes_precision t then
          let* (v, r, next) := count_res c next in out6 (set_opt set_precision_ref (set_opt set_precision sp v) r) next
        else Throw
    end.
  Definition out4 (sp : specs) (next : Z) : out :=
    let* (v, r, next) := count_res (f_width f) next in out5 (set_opt set_width_ref (set_opt set_width sp v) r) next.
  Definition out3 (sp : specs) (next : Z) : out :=
    if f_zero f then
      if is_arithmetic t then out4 (if decide (al sp = ANone) then set_fill (set_al sp ANumeric) (<[0%nat := 48]> (fill sp)) else sp) next
      else Throw
    else out4 sp next.
  Definition out2 (sp : specs) (next : Z) : out :=
    if f_alternate f then if is_arithmetic t then out3 (set_alt sp true) next else Throw else out3 sp next.
  Definition out1 (sp : specs) (next : Z) : out :=
    match f_sign f with
    | None => out2 sp next
    | _ => if takes_sign t then out2 (set_sgn sp (sgn_of f)) next else Throw
    end.

  Lemma run7 p c l st sp next : tail7 = c :: l -> drop p s = tail7 -> ends (specs_step s t) (p, c, st, sp, next) (out7 sp next).
  Proof using Type.
    unfold tail7, out7, type_fits. intros Hc Hs.
    destruct (f_type f) as [ty|] eqn:Hf; cbn [type_text app] in *.
    - assert (Hstep : forall c pr set, presentation c = Some (pr, set) -> (97 <= c \/ 63 <= c <= 75 \/ 77 <= c <= 93) -> c <> 123 ->
        drop p s = c :: 125 :: rest -> specs_step s t (p, c, st, sp, next) = if set t then Ok (inr (the_end, set_typ sp pr, next)) else Throw).
      { intros c' pr set Hp Hr Hnb Hd. unfold specs_step. assert (Hnd : is_digit c' || (c' =? 123) = false).
        { unfold is_digit. lia. }
        dec. rewrite Hnd. dec. rewrite Hp. destruct (set t); [|done]. do 4 f_equal. apply the_end_eq. by eapply drop_next. }
      destruct ty as [[| |[]|[]]| | | |[] []|]; cbn in Hc, Hs; injection Hc as <- <-; destruct t;
        (apply ends_ok || apply ends_throw); (etrans; [eapply Hstep; [reflexivity|lia|lia|exact Hs]|reflexivity]).
    - injection Hc as <- <-. apply ends_ok. unfold specs_step. dec. change (is_digit 125 || (125 =? 123)) with false. cbv iota. dec.
      change (presentation 125) with (@None (pres * (ty -> bool))). cbv iota. do 4 f_equal. by apply the_end_eq.
  Qed.
  Lemma run6 p c l st sp next : tail6 = c :: l -> drop p s = tail6 -> (st < 7)%nat -> ends (specs_step s t) (p, c, st, sp, next) (out6 sp next).
  Proof using Type.
    unfold tail6, out6. intros Hc Hs Hst. destruct (f_local f) eqn:Hf; cbn [flag_text app] in *.
    - injection Hc as <- <-. destruct head7 as (c & l & Hc & _). pose proof (drop_next _ _ _ _ Hs) as Hs'. rewrite Hc in Hs'.
      assert (Hstep : specs_step s t (p, 76, st, sp, next) = let* st := enter_state st 7 (is_arithmetic t) in continue_at s (S p) st (set_localized sp true) next).
      { unfold specs_step. dec. change (is_digit 76 || (76 =? 123)) with false. cbv iota. dec. done. }
      destruct (is_arithmetic t).
      + eapply ends_step; [|eapply (run7 _ _ _ 7); [exact Hc|by rewrite Hc]].
        rewrite Hstep, enter_state_ok by done. cbn [bind]. by eapply continue_ok.
      + apply ends_throw. by rewrite Hstep, enter_state_throw.
    - by eapply run7.
  Qed.
  Lemma head6_bare : f_precision f = Bare -> exists c l, tail6 = c :: l /\ is_digit c = false /\ c <> 125 /\ c <> 123.
  Proof using Hok.
    destruct Hok as (_ & _ & _ & Hb). intros H. specialize (Hb H). unfold tail6, tail7. destruct (f_local f); cbn; [eauto 6|].
    destruct Hb as [?|Hb]; [done|]. destruct (f_type f) as [[[| |[]|[]]| | | |[] []|]|]; cbn; eauto 6; done.
  Qed.
  Lemma parse_precision_ok p ps next : f_precision f <> NoCount -> pt = 46 :: ps -> drop p s = 46 :: ps ++ tail6 ->
    parse_precision s p next = let* (v, r, next') := count_res (f_precision f) next in Ok ((S p + length ps)%nat, v, r, next').
  Proof using Hok Hpt.
    destruct Hok as (_ & _ & Hpok & _). intros Hno Hps Hs. destruct head6 as (c & l & Hc & Hd). pose proof (drop_next _ _ _ _ Hs) as Hs'.
    unfold parse_precision. inversion Hpt as [Hb He|n ds Hf Hne Hlen Hn Hq He|Hq He|cn ps' Hne Hps' Hq He]; subst pt.
    - injection He as <-. destruct (head6_bare (eq_sym Hb)) as (c' & l' & Hc' & Hd' & H125 & H123). cbn [app] in Hs'. rewrite Hc' in Hs'.
      pose proof (drop_lt _ _ _ _ Hs'). rewrite decide_False by lia. rewrite (get_head _ _ _ _ Hs'). cbn [bind]. rewrite decide_False by done.
      unfold parse_dynamic_spec. rewrite (get_head _ _ _ _ Hs'). cbn [bind]. rewrite Hd', decide_False by done. cbn. by rewrite Nat.add_0_r.
    - injection He as <-. destruct ds as [|d ds]; [done|]. pose proof Hf as [Hd0 _]%Forall_cons. pose proof Hs' as Hs2. rewrite fmap_cons in Hs2. cbn [app] in Hs2.
      pose proof (drop_lt _ _ _ _ Hs2). rewrite decide_False by lia. rewrite (get_head _ _ _ _ Hs2). cbn [bind].
      rewrite decide_False by (rewrite digit_char_eq by done; lia). unfold parse_dynamic_spec. rewrite (get_head _ _ _ _ Hs2). cbn [bind].
      rewrite digit_char_is_digit by done. rewrite <- Hq in Hpok. cbn in Hpok. cbn [count_res bind].
      rewrite (parse_nonnegative_int_ok s (S p) (-1) (d :: ds) tail6); [|done|done|done|rewrite Hc; by intros ? [= <-]].
      unfold parsed_number. rewrite decide_True by (split; [done|lia]). cbn [bind]. rewrite decide_True by lia. by rewrite fmap_length, Hn.
    - by rewrite <- Hq in Hno.
    - injection He as ->. rewrite Hc in Hs'.
      assert (Hh : exists x y, ps = x :: y /\ x <> 125).
      { destruct Hps' as [|n ps Hn|w ps Hw]; [done| |eauto]. destruct (numeral_head n ps Hn) as (d & t' & -> & Hd' & _). exists (digit_char false d), t'.
        split; [done|]. rewrite digit_char_eq by done. lia. }
      destruct Hh as (x & y & Hxy & Hx).
      assert (Hs2 : drop (S p) s = x :: y ++ c :: l) by (by rewrite Hs', Hxy).
      pose proof (drop_lt _ _ _ _ Hs2). rewrite decide_False by lia. rewrite (get_head _ _ _ _ Hs2). cbn [bind].
      rewrite decide_False by done. by rewrite (parse_dynamic_spec_ok s (S p) 0 (f_precision f) ps next c l) by (done || lia).
  Qed.
  Lemma run5 p c l st sp next : tail5 = c :: l -> drop p s = tail5 -> (st < 6)%nat -> ends (specs_step s t) (p, c, st, sp, next) (out5 sp next).
  Proof using Hok Hpt.
    unfold tail5. intros Hc Hs Hst.
    destruct (decide (f_precision f = NoCount)) as [Hno|Hno].
    - unfold out5. rewrite Hno in *. inversion Hpt; [|done]. subst pt. cbn [app] in *. eapply run6; [done|done|lia].
    - assert (Hps : exists ps, pt = 46 :: ps) by (destruct Hpt; eauto; done). destruct Hps as [ps Hps].
      rewrite Hps in Hc, Hs. cbn [app] in Hc, Hs. injection Hc as <- <-. destruct head6 as (c & l & Hc & Hd).
      assert (Hstep : specs_step s t (p, 46, st, sp, next) = let* st := enter_state st 6 (takes_precision t) in
        let* (begin, v, r, next) := parse_precision s p next in
        continue_at s begin st (set_opt set_precision_ref (set_opt set_precision sp v) r) next).
      { unfold specs_step. dec. change (is_digit 46 || (46 =? 123)) with false. cbv iota. dec. done. }
      assert (Hout : out5 sp next = if takes_precision t then
          let* (v, r, next) := count_res (f_precision f) next in out6 (set_opt set_precision_ref (set_opt set_precision sp v) r) next else Throw).
      { unfold out5. by destruct (f_precision f). }
      rewrite Hout. clear Hout.
      destruct (takes_precision t) eqn:Ht; [|apply ends_throw; by rewrite Hstep, enter_state_throw].
      rewrite enter_state_ok in Hstep by done. cbn [bind] in Hstep. rewrite (parse_precision_ok p ps next Hno Hps Hs) in Hstep.
      destruct (count_res_cases (f_precision f) next) as [(v & r & next' & Hcr)|Hcr]; rewrite Hcr in *; cbn [bind] in *.
      + pose proof (drop_after s (S p) ps _ (drop_next _ _ _ _ Hs)) as Hs2.
        eapply ends_step; [|eapply (run6 (S p + length ps)%nat _ _ 6); [exact Hc|exact Hs2|lia]].
        rewrite Hstep. eapply continue_ok. rewrite Hs2. exact Hc.
      + by apply ends_throw.
  Qed.
  Lemma run4 p c l st sp next : tail4 = c :: l -> drop p s = tail4 -> (st < 5)%nat -> ends (specs_step s t) (p, c, st, sp, next) (out4 sp next).
  Proof using Hok Hpt Hwt.
    destruct Hok as (_ & Hwok & _). unfold tail4, out4. intros Hc Hs Hst.
    destruct (decide (f_width f = NoCount)) as [Hno|Hno].
    - rewrite Hno in *. inversion Hwt; subst. cbn in *. eapply run5; [done|done|lia].
    - destruct head5 as (c5 & l5 & Hc5 & Hd5). assert (Hcc : is_digit c || (c =? 123) = true /\ c <> 48 /\ 49 <= c).
      { destruct Hwt as [|n wt' Hn|w wt']; [done| |].
        - destruct (numeral_head n wt' Hn) as (d & t' & -> & Hd & Hd0). cbn in Hc, Hwok. injection Hc as <- <-.
          specialize (Hd0 ltac:(lia)). rewrite digit_char_eq by done. unfold is_digit. split_and!; lia.
        - cbn in Hc. injection Hc as <- <-. done. }
      destruct Hcc as (Hcd & Hc48 & Hcr). rewrite Hc5 in Hs.
      assert (Hstep : specs_step s t (p, c, st, sp, next) = let* (v, r, next) := count_res (f_width f) next in
        continue_at s (p + length wt) 5 (set_opt set_width_ref (set_opt set_width sp v) r) next).
      { unfold specs_step. unfold is_digit in Hcd. dec. replace (is_digit c || (c =? 123)) with true by (unfold is_digit; lia).
        rewrite enter_state_ok by done. cbn [bind].
        rewrite (parse_dynamic_spec_ok s p 1 (f_width f) wt next c5 l5) by (done || lia).
        by destruct (count_res (f_width f) next) as [[[v r] next']| | |]. }
      destruct (count_res_cases (f_width f) next) as [(v & r & next' & Hcr')|Hcr']; rewrite Hcr' in *; cbn [bind] in *.
      + eapply ends_step; [|eapply (run5 (p + length wt)%nat _ _ 5); [exact Hc5| |lia]].
        2: { rewrite Hc5. by eapply drop_after. }
        rewrite Hstep. eapply continue_ok. by eapply drop_after.
      + by apply ends_throw.
  Qed.
  Lemma run3 p c l st sp next : tail3 = c :: l -> drop p s = tail3 -> (st < 4)%nat -> ends (specs_step s t) (p, c, st, sp, next) (out3 sp next).
  Proof using Hok Hpt Hwt.
    unfold tail3, out3. intros Hc Hs Hst. destruct (f_zero f) eqn:Hf; cbn [flag_text app] in *.
    - injection Hc as <- <-. destruct head4 as (c & l & Hc). pose proof (drop_next _ _ _ _ Hs) as Hs'. rewrite Hc in Hs'.
      destruct (is_arithmetic t) eqn:Ht.
      + eapply ends_step; [|eapply (run4 _ _ _ 4); [exact Hc|by rewrite Hc|lia]].
        unfold specs_step. dec. rewrite enter_state_ok by done. cbn [bind]. rewrite Ht. by eapply continue_ok.
      + apply ends_throw. unfold specs_step. dec. rewrite enter_state_ok by done. cbn [bind]. by rewrite Ht.
    - eapply run4; [done|done|lia].
  Qed.
  Lemma run2 p c l st sp next : tail2 = c :: l -> drop p s = tail2 -> (st < 3)%nat -> ends (specs_step s t) (p, c, st, sp, next) (out2 sp next).
  Proof using Hok Hpt Hwt.
    unfold tail2, out2. intros Hc Hs Hst. destruct (f_alternate f) eqn:Hf; cbn [flag_text app] in *.
    - injection Hc as <- <-. destruct head3 as (c & l & Hc). pose proof (drop_next _ _ _ _ Hs) as Hs'. rewrite Hc in Hs'.
      destruct (is_arithmetic t) eqn:Ht.
      + eapply ends_step; [|eapply (run3 _ _ _ 3); [exact Hc|by rewrite Hc|lia]].
        unfold specs_step. dec. rewrite Ht, enter_state_ok by done. cbn [bind]. by eapply continue_ok.
      + apply ends_throw. unfold specs_step. dec. by rewrite Ht, enter_state_throw.
    - eapply run3; [done|done|lia].
  Qed.
  Lemma run1 p c l st sp next : tail1 = c :: l -> drop p s = tail1 -> (st < 2)%nat -> ends (specs_step s t) (p, c, st, sp, next) (out1 sp next).
  Proof using Hok Hpt Hwt.
    unfold tail1, out1, sgn_of. intros Hc Hs Hst. destruct (f_sign f) as [sg|] eqn:Hf; cbn [sign_option_text app] in *.
    - assert (Hsc : c = match sg with Plus => 43 | Minus => 45 | Space => 32 end /\ drop p s = c :: tail2) by (destruct sg; injection Hc as <- <-; done).
      destruct Hsc as [Hsc Hs1]. destruct head2 as (c2 & l2 & Hc2). pose proof (drop_next _ _ _ _ Hs1) as Hs'. rewrite Hc2 in Hs'.
      fold (takes_sign t). destruct (takes_sign t) eqn:Ht.
      + eapply ends_step; [|eapply (run2 _ _ _ 2); [exact Hc2|by rewrite Hc2|lia]].
        unfold specs_step. fold (takes_sign t). destruct sg; subst c; dec; rewrite Ht, enter_state_ok by done; cbn [bind]; by eapply continue_ok.
      + apply ends_throw.
        unfold specs_step. fold (takes_sign t). destruct sg; subst c; dec; by rewrite Ht, enter_state_throw.
    - eapply run2; [done|done|lia].
  Qed.
End fields.

(** ** From the start of the specs *)

Definition plain (c : Z) : Prop := c <> 60 /\ c <> 62 /\ c <> 94.
Lemma plain_align c : plain c -> parse_align c = ANone.
Proof. intros (H1 & H2 & H3). unfold parse_align. by rewrite !decide_False. Qed.
Lemma digits_plain n t : numeral 10 false n t -> Forall plain t.
Proof.
  intros (ds & -> & Hf & _). apply Forall_fmap. eapply Forall_impl; [exact Hf|]. intros d Hd. change (plain (digit_char false d)). rewrite digit_char_eq by done. unfold plain.
cbn in Hd. lia.
Qed.
Ltac plains := repeat (apply List.Forall_cons; [unfold plain; lia|]); apply List.Forall_nil.
Lemma which_plain w t : which_ok w -> which_text w t -> Forall plain t.
Proof.
  intros Hw Ht. destruct Ht as [|i t Hi|i t Hi _|name]; [done|by eapply digits_plain..|]. destruct name as [|c name]; [done|]. destruct Hw as [Hc Hn].
  constructor; [unfold plain, letter in *; lia|]. eapply Forall_impl; [exact Hn|]. intros x Hx. cbn in Hx. unfold plain, letter in *. lia.
Qed.
Lemma count_plain least c t : count_ok least c -> count_text c t -> Forall plain t.
Proof.
  intros Hc Ht. destruct Ht as [|n t Hn|w t Hw]; [done|by eapply digits_plain|].
  constructor; [unfold plain; lia|]. apply Forall_app. split; [by eapply which_plain|]. plains.
Qed.

Lemma code_point_length_ok b : 0 <= b < 256 -> code_point_length b = code_point_bytes b.
Proof.
  assert (H : forallb (fun k => let b := Z.of_nat k in Nat.eqb (code_point_length b) (code_point_bytes b)) (seq 0 256) = true) by (vm_compute; reflexivity).
  intros Hb. rewrite forallb_forall in H. specialize (H (Z.to_nat b)). cbv zeta in H. rewrite in_seq in H. specialize (H ltac:(lia)).
  rewrite Z2Nat.id in H by lia. by apply Nat.eqb_eq.
Qed.

Lemma presentation_none c : c < 63 \/ 123 <= c -> presentation c = None.
Proof. intros Hc. unfold presentation. dec. done. Qed.

Lemma loop_specs_ok s t p c next r : (p < length s)%nat -> (c = 0 \/ s !! p = Some c) ->
  ends (specs_step s t) (p, c, 0%nat, default_specs, next) r -> loop (S (length s)) (specs_step s t) (p, c, 0%nat, default_specs, next) = r.
Proof.
  intros Hp Hc Hr.
  assert (Hs : safe (loop (S (length s)) (specs_step s t) (p, c, 0%nat, default_specs, next)) (fun _ => True)).
  { apply (safe_loop (fun '(b, c, st, sp, next) => (b < length s)%nat /\ specs_ok t sp /\ (st = 0%nat -> al sp = ANone /\ fill sp = [32])
      /\ (al sp = ANone -> fill sp = [32]) /\ (c = 0 \/ s !! b = Some c)) (fun '(b, _, _, _, _) => (length s - b)%nat)).
    - lia.
    - split_and!; [lia|apply default_specs_ok|done|done|done].
    - intros [[[[b' c'] st] sp] nx] (Hb' & Hsp & Hst & Hf & Hc').
      eapply safe_mono; [apply specs_step_safe; [lia|done|done|done|done]|].
      intros [[[[[b2 c2] st2] sp2] nx2]|[[b2 sp2] nx2]]; [|done].
      intros (Hb2 & Hsp2 & Hst2 & Hf2 & Hc2). split; [|lia]. split_and!; [lia|done|lia|done|by right]. }
  destruct (ends_loop _ _ _ (S (length s)) Hr) as [Hd|Hd]; [|done]. by rewrite Hd in Hs.
Qed.

(** What a field is parsed to. *)
Definition start_specs (f : field) : specs :=
  match f_align f with
  | None => default_specs
  | Some _ => set_al (match f_fill f with [] => default_specs | fl => set_fill default_specs fl end) (al_of f)
  end.

Lemma parse_format_specs_out s p t f ft rest next :
  field_ok f -> field_text f ft -> drop p s = ft ++ 125 :: rest ->
  the_end s rest = (p + length ft)%nat /\ parse_format_specs s p t next = out1 s t f rest (start_specs f) next.
Proof.
  intros Hok Hft Hs. destruct Hft as [wt pt Hwt Hpt].
  set (text1 := sign_option_text (f_sign f) ++ flag_text (f_alternate f) 35 ++ flag_text (f_zero f) 48 ++ wt ++ pt ++ flag_text (f_local f) 76 ++ type_text (f_type f)) in *.
  assert (Ht1 : text1 ++ 125 :: rest = tail1 f wt pt rest).
  { unfold text1, tail1, tail2, tail3, tail4, tail5, tail6, tail7. by rewrite <- !app_assoc. }
  assert (Hpl : Forall plain text1).
  { destruct Hok as (_ & Hw & Hp & _). unfold text1. rewrite !Forall_app. split_and!.
    - destruct (f_sign f) as [[]|]; plains.
    - destruct (f_alternate f); plains.
    - destruct (f_zero f); plains.
    - exact (count_plain 1 _ _ Hw Hwt).
    - destruct Hpt as [|n ds Hf _ _ _| |cn ps _ Hps]; [plains| |done|].
      { constructor; [unfold plain; lia|]. apply Forall_fmap. eapply Forall_impl; [exact Hf|]. intros d Hd. change (plain (digit_char false d)). rewrite digit_char_eq by done. unfold plain. cbn in Hd. lia. }
      constructor; [unfold plain; lia|]. exact (count_plain 0 _ _ Hp Hps).
    - destruct (f_local f); plains.
    - destruct (f_type f) as [[[| |[]|[]]| | | |[] []|]|]; plains. }
  assert (Hlen : p = (length s - length ((f_fill f ++ align_text (f_align f) ++ text1) ++ 125%Z :: rest))%nat).
  { destruct ((f_fill f ++ align_text (f_align f) ++ text1) ++ 125 :: rest) as [|x l] eqn:Hx; [by destruct (f_fill f ++ align_text (f_align f) ++ text1)|].
    pose proof (drop_lt _ _ _ _ Hs). rewrite <- Hs. rewrite drop_length. lia. }
  split.
  { unfold the_end. rewrite app_length in Hlen. cbn [length] in Hlen.
    destruct ((f_fill f ++ align_text (f_align f) ++ text1) ++ 125 :: rest) as [|x l] eqn:Hx; [by destruct (f_fill f ++ align_text (f_align f) ++ text1)|].
    pose proof (drop_lt _ _ _ _ Hs). apply (f_equal length) in Hx, Hs. rewrite drop_length in Hs. rewrite app_length in Hx. cbn [length] in *. lia. }
  unfold start_specs. rewrite <- !app_assoc, Ht1 in Hs. clear Hlen.
  destruct (head1 f wt pt rest Hwt Hpt) as (c1 & l1 & Hc1).
  assert (Hsecond : match tail1 f wt pt rest with x :: y :: _ => x = 125 \/ parse_align y = ANone | _ => True end).
  { rewrite <- Ht1. destruct Hpl as [|x text Hx [|y text' Hy Hpl]]; cbn; [destruct rest; auto|by right|]. right. by apply plain_align. }
  assert (Hp : (p < length s)%nat).
  { destruct (f_fill f ++ align_text (f_align f) ++ tail1 f wt pt rest) as [|x l] eqn:Hx; [|by eapply drop_lt].
    rewrite Hc1 in Hx. destruct (f_fill f), (align_text (f_align f)); done. }
  unfold parse_format_specs. rewrite decide_False by lia.
  destruct (f_fill f) as [|b fl] eqn:Hfill.
  - destruct (f_align f) as [a|] eqn:Hal; cbn [app] in Hs.
    + (* an alignment *)
      assert (Hsa : exists ac, drop p s = ac :: tail1 f wt pt rest /\ (ac = 60 \/ ac = 62 \/ ac = 94) /\ parse_align ac = al_of f).
      { unfold al_of. rewrite Hal. destruct a; cbn in Hs; eexists; (split; [exact Hs|]); auto. }
      destruct Hsa as (ac & Hsa & Hac & Hpa). rewrite (get_head _ _ _ _ Hsa). cbn [bind].
      pose proof (drop_next _ _ _ _ Hsa) as Hs1. rewrite Hc1 in Hs1. pose proof (drop_lt _ _ _ _ Hs1).
      rewrite decide_True by lia. rewrite (get_head _ _ _ _ Hs1). cbn [bind].
      assert (Hpc1 : parse_align c1 = ANone).
      { apply plain_align. rewrite <- Ht1 in Hc1. destruct Hpl as [|x text Hx Hpl]; cbn in Hc1; injection Hc1 as <- _; [unfold plain; lia|done]. }
      rewrite decide_True by done. cbn [bind]. apply loop_specs_ok; [done|right; by eapply drop_head|].
      eapply ends_step; [|eapply (run1 s t f wt pt rest Hok Hwt Hpt (S p) c1 l1 1%nat); [exact Hc1|by rewrite Hc1|lia]].
      unfold specs_step. rewrite decide_True by done. rewrite enter_state_ok by lia. cbn [bind]. rewrite Hpa. by eapply continue_ok.
    + (* neither *)
      cbn [align_text app] in Hs. rewrite Hc1 in Hs, Hsecond. rewrite (get_head _ _ _ _ Hs). cbn [bind].
      assert (Hrun : ends (specs_step s t) (p, c1, 0%nat, default_specs, next) (out1 s t f rest default_specs next)).
      { eapply run1; [done|done|done|exact Hc1|by rewrite Hc1|lia]. }
      destruct (decide (1 < length s - p)%nat) as [Hlt|Hlt]; [|cbn [bind]; apply loop_specs_ok; [done|right; by eapply drop_head|done]].
      destruct l1 as [|y l1].
      { apply (f_equal length) in Hs. rewrite drop_length in Hs. cbn in Hs. lia. }
      rewrite (get_head _ _ _ _ (drop_next _ _ _ _ Hs)). cbn [bind].
      destruct (decide (parse_align y = ANone)) as [Hy|Hy]; cbn [bind]; [apply loop_specs_ok; [done|right; by eapply drop_head|done]|].
      destruct Hsecond as [-> |?]; [|done]. apply loop_specs_ok; [done|by left|].
      (* the end, and an alignment after it *)
      assert (Hstep0 : specs_step s t (p, 125, 0%nat, default_specs, next) = Ok (inr (p, default_specs, next))).
      { unfold specs_step. dec. change (is_digit 125 || (125 =? 123)) with false. cbv iota. dec. rewrite presentation_none by lia. dec. done. }
      inversion Hrun as [? ? Hstep|? Hstep|? ? ? Hstep]; subst; rewrite Hstep0 in Hstep; try done. injection Hstep as <-.
      apply ends_ok. unfold specs_step. dec.
      change (is_digit 0 || (0 =? 123)) with false. cbv iota. dec. rewrite !presentation_none by lia. dec. rewrite (get_head _ _ _ _ Hs). cbn [bind]. dec. done.
  - (* a fill *)
    destruct Hok as [[Hbad|(Hal & b0 & bs & Hfl & Hb256 & Hn1 & Hn2 & Hbytes)] Hok2]; [congruence|].
    destruct (f_align f) as [a|] eqn:Hfa; [|done].
    rewrite Hfill in Hfl. injection Hfl as <- <-.
    assert (Hl : code_point_length b = S (length fl)) by (by rewrite code_point_length_ok, <- Hbytes).
    assert (Hsa : exists ac, drop p s = (b :: fl) ++ ac :: tail1 f wt pt rest /\ (ac = 60 \/ ac = 62 \/ ac = 94) /\ parse_align ac = al_of f).
    { unfold al_of. rewrite Hfa. destruct a; cbn in Hs; eexists; (split; [exact Hs|]); auto. }
    destruct Hsa as (ac & Hsa & Hac & Hpa).
    pose proof (drop_after s p (b :: fl) _ Hsa) as Hs1. cbn [length] in Hs1. pose proof (drop_next _ _ _ _ Hs1) as Hs2. rewrite Hc1 in Hs2.
    pose proof (drop_lt _ _ _ _ Hs2).
    assert (Hgb : get s p = Ok b) by (unfold get; by rewrite (drop_head s p b _ Hsa)).
    assert (Hstep : forall c, c = 0 \/ 128 <= c -> c <> 125 -> specs_step s t (p, c, 0%nat, default_specs, next)
      = Ok (inl (S (p + S (length fl)), c1, 1%nat, set_al (set_fill default_specs (b :: fl)) (al_of f), next))).
    { intros c Hc Hc'. unfold specs_step. dec. replace (is_digit c || (c =? 123)) with false by (unfold is_digit; lia). cbv iota. dec.
      rewrite presentation_none by lia. dec. rewrite Hgb. cbn [bind]. rewrite Hl. dec. rewrite (get_head _ _ _ _ Hs1). cbn [bind].
      rewrite bool_decide_true by (rewrite Hpa; unfold al_of; rewrite Hfa; by destruct a). rewrite enter_state_ok by lia. cbn [bind].
      rewrite Hpa. replace (slice s p (p + S (length fl))) with (b :: fl).
      - by eapply continue_ok.
      - unfold slice. rewrite Hsa. replace (p + S (length fl) - p)%nat with (length (b :: fl)) by (cbn; lia). by rewrite take_app. }
    assert (Hrun : forall c, c = 0 \/ 128 <= c -> c <> 125 -> ends (specs_step s t) (p, c, 0%nat, default_specs, next)
      (out1 s t f rest (set_al (set_fill default_specs (b :: fl)) (al_of f)) next)).
    { intros c Hc Hc'. eapply ends_step; [by apply Hstep|].
      eapply run1; [|done|done|exact Hc1|by rewrite Hc1|lia]. split; [|done]. right. rewrite Hfa, Hfill. split; [done|]. exists b, fl. split_and!; done || lia. }
    rewrite Hgb. cbn [bind]. rewrite decide_True by lia.
    destruct fl as [|b2 fl].
    + cbn [length] in Hs1. replace (p + 1)%nat with (S p) in Hs1 by lia. rewrite (get_head _ _ _ _ Hs1). cbn [bind].
      rewrite decide_False by (rewrite Hpa; unfold al_of; rewrite Hfa; by destruct a). cbn [bind].
      apply loop_specs_ok; [done|by left|]. apply Hrun; [by left|done].
    + pose proof (drop_next _ _ _ _ Hsa) as Hs3. cbn [app] in Hs3. rewrite (get_head _ _ _ _ Hs3). cbn [bind].
      destruct (decide (parse_align b2 = ANone)) as [Hb2|Hb2]; cbn [bind]; [|apply loop_specs_ok; [done|by left|]; apply Hrun; [by left|done]].
      apply loop_specs_ok; [done|right; by eapply drop_head|]. apply Hrun; [|done]. right.
      unfold code_point_bytes in Hbytes. cbn [length] in Hbytes. repeat destruct (decide _); lia.
Qed.

(** Whether the type admits the field; but for the alignment and the alternate form of chars, which are
    looked at when the value is written. *)
Definition parse_fits (t : ty) (f : field) : bool :=
  match f_sign f with None => true | _ => takes_sign t end &&
  (negb (f_alternate f) || is_arithmetic t) && (negb (f_zero f) || is_arithmetic t) &&
  match f_precision f with NoCount => true | _ => takes_precision t end &&
  (negb (f_local f) || is_arithmetic t) && type_fits t f.

Lemma admits_parse t f : admits (kind_of_ty t) f <->
  parse_fits t f = true /\ (t = TChar -> as_char (f_type f) -> f_alternate f = false /\ zero_padded f = false).
Proof.
  unfold parse_fits, type_fits, admits. destruct f as [fl al sg alt ze w p lo ty]. cbn.
  rewrite !andb_true_iff. split.
  - intros (Hty & Hsg & Ha & Hz & Hl & Hp & Hc). split; [|intros ->; by apply Hc]. split_and!.
    + destruct sg; [|done]. specialize (Hsg ltac:(done)). destruct t; done || (by destruct Hsg).
    + destruct alt; [|done]. specialize (Ha eq_refl). by destruct t.
    + destruct ze; [|done]. specialize (Hz eq_refl). by destruct t.
    + destruct p; [done|..]; specialize (Hp ltac:(done)); destruct t; done || (by destruct Hp as [?|[?|?]]).
    + destruct lo; [|done]. specialize (Hl eq_refl). by destruct t.
    + destruct ty as [[]|], t; done.
  - intros [[[[[[Hsg Ha] Hz] Hp] Hl] Hty] Hc]. split_and!.
    + destruct ty as [[]|], t; done.
    + intros ?. destruct sg, t; done || (by left) || (by right).
    + intros ->. by destruct t.
    + intros ->. by destruct t.
    + intros ->. by destruct t.
    + intros ?. destruct p, t; done || (by left) || (by right; left) || (by right; right).
    + intros Hk. apply Hc. by destruct t.
Qed.

Lemma count_res_throw_or c next : count_res c next = Throw \/ exists x, count_res c next = Ok x.
Proof. destruct (count_res_cases c next) as [(v & r & n & ->)| ->]; eauto. Qed.

(** The specs, once each part of the field is read. *)
Definition add_type f (sp : specs) : specs := match f_type f with None => sp | ty => set_typ sp (pres_of ty) end.
Definition add_local f (sp : specs) : specs := if f_local f then set_localized sp true else sp.
Definition add_precision (v : option Z) (r : option ref) (sp : specs) : specs := set_opt set_precision_ref (set_opt set_precision sp v) r.
Definition add_width (v : option Z) (r : option ref) (sp : specs) : specs := set_opt set_width_ref (set_opt set_width sp v) r.
Definition add_zero f (sp : specs) : specs :=
  if f_zero f then if decide (al sp = ANone) then set_fill (set_al sp ANumeric) (<[0%nat := 48]> (fill sp)) else sp else sp.
Definition add_alternate f (sp : specs) : specs := if f_alternate f then set_alt sp true else sp.
Definition add_sign f (sp : specs) : specs := match f_sign f with None => sp | _ => set_sgn sp (sgn_of f) end.

Lemma out1_eq s t f rest sp next : out1 s t f rest sp next =
  if parse_fits t f then
    let* (v, r, next) := count_res (f_width f) next in
    let* (v', r', next) := count_res (f_precision f) next in
    Ok (the_end s rest, add_type f (add_local f (add_precision v' r' (add_width v r (add_zero f (add_alternate f (add_sign f sp)))))), next)
  else Throw.
Proof.
  unfold out1, out2, out3, out4, out5, out6, out7, parse_fits, add_sign, add_alternate, add_zero, add_local, add_type.
  set (sg := sgn_of f). set (tf := type_fits t f). destruct f as [fl al sg' alt ze w p0 lo ty]. cbn [f_sign f_alternate f_zero f_precision f_width f_local f_type].
  destruct (count_res_throw_or w next) as [-> | [[[v r] next1] ->]]; cbn [bind].
  - destruct sg' as [sg'|], t, alt, ze; reflexivity || (cbn; repeat match goal with |- context [if ?b then _ else _] => destruct b end; reflexivity).
  - destruct p0 as [|n|wh|]; cbn [count_res bind].
    + destruct sg' as [sg'|], t, alt, ze, lo, tf; reflexivity.
    + destruct sg' as [sg'|], t, alt, ze, lo, tf; reflexivity.
    + destruct (dynamic_id (id_of wh) next1) as [[r' next2]| | |] eqn:Hd; cbn [bind].
      * destruct sg' as [sg'|], t, alt, ze, lo, tf; reflexivity.
      * destruct sg' as [sg'|], t, alt, ze, lo, tf; reflexivity.
      * destruct (count_res_throw_or (OfArg wh) next1) as [H|[x H]]; cbn in H; by rewrite Hd in H.
      * destruct (count_res_throw_or (OfArg wh) next1) as [H|[x H]]; cbn in H; by rewrite Hd in H.
    + destruct sg' as [sg'|], t, alt, ze, lo, tf; reflexivity.
Qed.
Lemma added_specs f v r v' r' : (f_fill f <> [] -> f_align f <> None) ->
  add_type f (add_local f (add_precision v' r' (add_width v r (add_zero f (add_alternate f (add_sign f (start_specs f)))))))
  = specs_of f (default 0 v) (default (-1) v') (default RNone r) (default RNone r').
Proof.
  destruct f as [fl al sg alt ze w p lo ty]. cbn. intros Hfl.
  unfold add_type, add_local, add_precision, add_width, add_zero, add_alternate, add_sign, start_specs, specs_of, al_of, sgn_of, fill_text, zero_padded. cbn.
  assert (Hz : forall sp, al <> None -> FormatSpecs.al sp = match al with Some PlLeft => ALeft | Some PlRight => ARight | Some PlCenter => ACenter | None => ANone end ->
    (if decide (FormatSpecs.al sp = ANone) then set_fill (set_al sp ANumeric) (<[0%nat:=48]> (fill sp)) else sp) = sp).
  { intros sp Hal Hsp. rewrite decide_False; [done|]. rewrite Hsp. by destruct al as [[]|]. }
  destruct al as [al|].
  - destruct v, r, v', r', lo, ty, sg, alt, ze; cbn; try (rewrite Hz by (done || (destruct fl, al; done))); cbn; destruct fl, al; reflexivity.
  - destruct fl as [|x fl]; [|by destruct Hfl]. destruct v, r, v', r', lo, ty, sg, alt, ze; reflexivity.
Qed.

Lemma parse_format_specs_ok s p t f ft rest next :
  field_ok f -> field_text f ft -> drop p s = ft ++ 125 :: rest ->
  parse_format_specs s p t next =
    if parse_fits t f then
      let* (v, r, next) := count_res (f_width f) next in
      let* (v', r', next) := count_res (f_precision f) next in
      Ok ((p + length ft)%nat, specs_of f (default 0 v) (default (-1) v') (default RNone r) (default RNone r'), next)
    else Throw.
Proof.
  intros Hok Hft Hs. destruct (parse_format_specs_out s p t f ft rest next Hok Hft Hs) as [<- ->]. rewrite out1_eq.
  destruct (parse_fits t f); [|done].
  destruct (count_res (f_width f) next) as [[[v r] next1]| | |]; [|done..]. cbn [bind].
  destruct (count_res (f_precision f) next1) as [[[v' r'] next2]| | |]; [|done..]. cbn [bind].
  rewrite added_specs; [done|]. intros Hf. destruct Hok as [[?|[? _]] _]; done.
Qed.
