(** The text of an item of a format string is determined. *)
From Verif Require Import Base.Cpp Model.Numeric Model.FmtInt Model.Utf8 Model.Escape Model.Format.
From Verif Require Import Spec.FormatSpec Spec.Utf8Spec Spec.EscapeSpec Spec.FieldSpec Spec.TemplateSpec.
From Verif Require Import Proofs.FormatWrite Proofs.Utf8Proofs.
Set Default Proof Using "Type".
Local Open Scope Z_scope.
Ltac Zify.zify_post_hook ::= idtac.

Lemma radix_gt b : 1 < radix b.
Proof. by destruct b. Qed.
Lemma grouped_unique sep gs ds t t' : grouped sep gs ds t -> grouped sep gs ds t' -> t = t'.
Proof.
  intros H. revert t'. induction H as [d|d ds t Hne Hg H IH|d ds t Hne Hg H IH]; intros t' H'; inversion H'; subst; try done;
    f_equal; first [by apply IH|f_equal; by apply IH].
Qed.
Lemma int_text_unique plus alt b zeros z t t' : int_text plus alt b zeros z t -> int_text plus alt b zeros z t' -> t = t'.
Proof.
  intros (d & Hd & ->) (d' & Hd' & ->). by rewrite (numeral_unique (radix b) (big b) (Z.abs z) d d' (radix_gt b) Hd Hd').
Qed.
Lemma number_shows_unique L f w b z t t' : number_shows L f w b z t -> number_shows L f w b z t' -> t = t'.
Proof.
  unfold number_shows. destruct (f_local f).
  - intros (d & body & Hd & Hb & ->) (d' & body' & Hd' & Hb' & ->).
    assert (d = d') as <- by (eapply numeral_unique; [|exact Hd|exact Hd']; done).
    by rewrite (grouped_unique _ _ _ _ _ Hb Hb').
  - destruct (zero_padded f).
    + intros (z1 & Ht & Hz) (z2 & Ht' & Hz'). assert (z1 = z2) as <-; [|by eapply int_text_unique].
      destruct Ht as (d & Hd & ->), Ht' as (d' & Hd' & ->).
      assert (d = d') as <- by (eapply numeral_unique; [apply radix_gt|exact Hd|exact Hd']).
      assert (Hc : forall n, 0 <= n -> Z.of_nat (length (copies n [48%Z])) = n).
      { intros n Hn. unfold copies. rewrite <- (Z2Nat.id n Hn) at 2. f_equal. generalize (Z.to_nat n). induction n0; cbn; congruence. }
      rewrite !app_length, !Nat2Z.inj_add in Hz, Hz'. rewrite !Hc in Hz by lia. rewrite !Hc in Hz' by lia. lia.
    + intros (t1 & Ht & ->) (t2 & Ht' & ->). by rewrite (int_text_unique _ _ _ _ _ _ _ Ht Ht').
Qed.
Lemma int_shows_unique L f w z t t' : int_shows L f w z t -> int_shows L f w z t' -> t = t'.
Proof.
  unfold int_shows, char_shows. destruct (f_type f) as [[b| | | |st u|]|]; [apply number_shows_unique| |done|done|done|done|apply number_shows_unique].
  destruct (f_local f); [apply number_shows_unique|congruence].
Qed.

Lemma pointer_shows_unique f w a t t' : pointer_shows f w a t -> pointer_shows f w a t' -> t = t'.
Proof. intros (d & Hd & ->) (d' & Hd' & ->). by rewrite (numeral_unique 16 _ _ _ _ ltac:(lia) Hd Hd'). Qed.

Section unique.
  Context (L : locale) (cols : list Z -> Z -> Prop) (debug_char : Z -> list Z -> Prop) (debug_string : list Z -> list Z -> Prop).
  Context (float_plain : bool -> Z -> list Z -> Prop) (float_text : field -> Z -> option Z -> bool -> Z -> list Z -> Prop).
  Context (Hcols : forall s n n', cols s n -> cols s n' -> n = n').
  Context (Hchar : forall c t t', debug_char c t -> debug_char c t' -> t = t').
  Context (Hstring : forall s t t', debug_string s t -> debug_string s t' -> t = t').
  Context (Hplain : forall d b t t', float_plain d b t -> float_plain d b t' -> t = t').
  Context (Htext : forall f w p d b t t', float_text f w p d b t -> float_text f w p d b t' -> t = t').
  Context (A : arguments).

  Lemma one_shows_unique f w p v t t' :
    one_shows L cols debug_char debug_string float_text f w p v t -> one_shows L cols debug_char debug_string float_text f w p v t' -> t = t'.
  Proof using Hcols Hchar Hstring Htext.
    assert (Hstr : forall s t t', (exists d, debug_string s d /\ string_shows cols d f w p s t) -> (exists d, debug_string s d /\ string_shows cols d f w p s t') -> t = t').
    { clear t t'. intros s t t' (d & Hd & Ht) (d' & Hd' & Ht'). rewrite (Hstring _ _ _ Hd' Hd) in Ht'. revert Ht Ht'. unfold string_shows.
      assert (Hgen : (exists ps c, pieces s ps /\ let t := concat (map snd (match p with Some n => take (Z.to_nat n) ps | None => ps end)) in
          cols t c /\ t' = in_field (place PlLeft f) (fill_text f) w c t) ->
        (exists ps c, pieces s ps /\ let u := concat (map snd (match p with Some n => take (Z.to_nat n) ps | None => ps end)) in
          cols u c /\ t = in_field (place PlLeft f) (fill_text f) w c u) -> t = t').
      { intros (ps & c & Hps & Hc & ->) (ps' & c' & Hps' & Hc' & ->). rewrite (pieces_functional _ _ _ Hps' Hps) in *.
        by rewrite (Hcols _ _ _ Hc' Hc). }
      destruct (f_type f) as [[]|]; first [congruence|intros H1 H2; by apply Hgen]. }
    destruct v as [sg z|b|c|s|d b|a s|a]; cbn [one_shows].
    - apply int_shows_unique.
    - unfold bool_shows. destruct (f_type f) as [[]|]; try apply int_shows_unique; congruence.
    - intros (d & Hd & Ht) (d' & Hd' & Ht'). rewrite (Hchar _ _ _ Hd' Hd) in Ht'. revert Ht Ht'. unfold char_value_shows, char_shows.
      destruct (f_type f) as [[]|]; try apply int_shows_unique; congruence.
    - apply Hstr.
    - apply Htext.
    - unfold cstring_shows. intros (d & Hd & Ht) (d' & Hd' & Ht').
      assert (Hc : f_type f = Some AsPointer \/ f_type f <> Some AsPointer) by (destruct (f_type f) as [[]|]; auto).
      destruct Hc as [Hf|Hf].
      + rewrite Hf in Ht, Ht'. by eapply pointer_shows_unique.
      + apply (Hstr s); [exists d|exists d']; (split; [done|]); [revert Ht|revert Ht']; by destruct (f_type f) as [[]|].
    - apply pointer_shows_unique.
  Qed.
  Lemma plain_shows_unique v t t' : plain_shows float_plain v t -> plain_shows float_plain v t' -> t = t'.
  Proof using Hplain. destruct v as [sg z|b|c|s|d b|a s|a]; cbn; [apply decimal_unique|congruence|congruence|congruence|apply Hplain|congruence|].
    intros (d & Hd & ->) (d' & Hd' & ->). by rewrite (numeral_unique 16 _ _ _ _ ltac:(lia) Hd Hd'). Qed.
  Lemma Forall2_unique {X Y} (P : X -> Y -> Prop) l l1 l2 : (forall x y y', P x y -> P x y' -> y = y') -> Forall2 P l l1 -> Forall2 P l l2 -> l1 = l2.
  Proof using Type.
    intros HP H. revert l2. induction H as [|x y l l1 Hxy H IH]; intros l2 H2; inversion H2; subst; [done|]. f_equal; [by eapply HP|by apply IH].
  Qed.
  Lemma finds_unique w v v' : finds A w v -> finds A w v' -> v = v'.
  Proof using Type.
    intros H. revert v'. induction H as [i v Hi Hv|n k i v Hk Hfirst H IH]; intros v' H'; inversion H' as [|n' k' i' ? Hk' Hfirst' Hf']; subst; [congruence|].
    apply IH. destruct (lt_eq_lt_dec k k') as [[Hlt|<-]|Hlt].
    - by destruct (Hfirst' k i Hlt).
    - rewrite Hk in Hk'. congruence.
    - by destruct (Hfirst k' i' Hlt).
  Qed.
  Lemma counts_unique c o o' : counts A c o -> counts A c o' -> o = o'.
  Proof using Type.
    intros [] H'; inversion H'; subst; try done. pose proof (finds_unique _ _ _ H H2). congruence.
  Qed.
  Lemma value_shows_unique v fo t t' :
    value_shows L cols debug_char debug_string float_plain float_text A v fo t -> value_shows L cols debug_char debug_string float_plain float_text A v fo t' -> t = t'.
  Proof using Hcols Hchar Hstring Hplain Htext.
    intros [v1 t1 H1|v1 f w p t1 Hw Hp H1|k vs fo1 texts H1|k vs sp texts H1|k vs sp f texts H1] H'; inversion H'; subst.
    - by eapply plain_shows_unique.
    - assert (w0 = w) as -> by (by eapply counts_unique). assert (p0 = p) as -> by (by eapply counts_unique). by eapply one_shows_unique.
    - do 3 f_equal. eapply Forall2_unique; [apply plain_shows_unique|done|done].
    - f_equal. eapply Forall2_unique; [apply plain_shows_unique|done|done].
    - f_equal. eapply Forall2_unique; [|exact H1|done]. intros x y y' (w & p & Hw & Hp & Hy) (w' & p' & Hw' & Hp' & Hy').
      assert (w' = w) as -> by (by eapply counts_unique). assert (p' = p) as -> by (by eapply counts_unique). by eapply one_shows_unique.
  Qed.
  Lemma item_shows_unique i t t' :
    item_shows L cols debug_char debug_string float_plain float_text A i t -> item_shows L cols debug_char debug_string float_plain float_text A i t' -> t = t'.
  Proof using Hcols Hchar Hstring Hplain Htext.
    intros [c|w fo v t1 Hv H1] H'; inversion H'; subst; [done|]. rewrite <- (finds_unique _ _ _ Hv H2) in H4. by eapply value_shows_unique.
  Qed.
End unique.

Lemma columns_unique s n n' : columns s n -> columns s n' -> n = n'.
Proof. intros (ps & Hps & ->) (ps' & Hps' & ->). by rewrite (pieces_functional _ _ _ Hps Hps'). Qed.
