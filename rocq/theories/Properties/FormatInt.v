(** format_int (fmt/format.h): property C167. *)
From Coq Require Import Strings.String.
From Verif Require Import Base.Cpp Model.Numeric Model.FmtInt Model.FormatSpecs Model.Format Model.FormatInt.
From Verif Require Import Spec.FormatSpec Spec.FieldSpec Spec.FloatField Spec.TemplateSpec.
From Verif Require Import Proofs.FmtIntProofs Proofs.FormatWrite Proofs.FormatValue Proofs.FormatSafe Proofs.TemplateProofs Proofs.FormatInt Proofs.ShowsUnique.
From Verif Require Import Properties.Text Properties.Format.
Local Open Scope Z_scope.

Lemma no_zero z s : decimal z s -> Forall (fun c => c <> 0) s.
Proof.
  intros (ds & (l & -> & Hl & _) & ->). apply Forall_app. split; [case_decide; by repeat constructor|].
  apply Forall_fmap. eapply Forall_impl; [exact Hl|]. intros d Hd. cbn -[digit_char] in *. unfold digit_char. case_decide; lia.
Qed.
Lemma take_text (k : nat) (s : list Z) c : take (length s) (drop k (replicate k None ++ (Some <$> s) ++ [c])) = Some <$> s.
Proof.
  rewrite drop_app_ge by (by rewrite replicate_length). rewrite replicate_length, Nat.sub_diag, drop_0.
  rewrite take_app_le by (by rewrite fmap_length). apply take_ge. by rewrite fmap_length.
Qed.

(** The chars are the integer in base 10: those of str, and size of them from data on. *)
Theorem C167_text object t z : 1 <= bits t <= 64 -> in_range t z = true ->
  exists x s, make_format_int object t z = Ok x /\ decimal z s /\ fi_text x = Ok s /\
    fi_size x = Ok (length s) /\ fi_read x (fi_data x) (length s) = Ok s.
Proof.
  intros Ht Hz. destruct (make_ok object t z Ht Hz) as (s & k & Hs & Hk & ->). eexists _, s. split; [done|]. split; [done|].
  set (x := FormatInt _ _ _). assert (Hsz : fi_size x = Ok (length s)).
  { unfold fi_size. cbn [fi_str fi_object x fst snd]. rewrite decide_True by done. f_equal. unfold buffer_size. lia. }
  assert (Hrd : fi_read x (fi_data x) (length s) = Ok s).
  { unfold fi_read, fi_data. cbn [fi_str fi_object fi_buffer x fst snd]. rewrite decide_True.
    - by rewrite take_text, read_all_some.
    - split; [done|]. rewrite !app_length, replicate_length, fmap_length. cbn. lia. }
  split; [|done]. unfold fi_text. by rewrite Hsz.
Qed.
Print Assumptions C167_text.
(** c_str is these chars and a 0, and leaves str as it is. *)
Theorem C167_c_str object t z : 1 <= bits t <= 64 -> in_range t z = true ->
  exists x s x' p, make_format_int object t z = Ok x /\ decimal z s /\ fi_c_str x = Ok (x', p) /\
    fi_rest x' p = Ok (s ++ [0]) /\ Forall (fun c => c <> 0) s /\ fi_text x' = Ok s /\ fi_data x' = fi_data x /\ fi_c_str x' = Ok (x', p).
Proof.
  intros Ht Hz. destruct (make_ok object t z Ht Hz) as (s & k & Hs & Hk & ->).
  set (x := FormatInt _ _ _). set (x' := FormatInt object (replicate k None ++ (Some <$> s) ++ [Some 0]) (object, k)).
  assert (Hput : forall c, put (replicate k None ++ (Some <$> s) ++ [c]) (buffer_size - 1) (Some 0) = Ok (replicate k None ++ (Some <$> s) ++ [Some 0])).
  { intros c. unfold put. rewrite decide_True.
    - f_equal. rewrite app_assoc. replace (buffer_size - 1)%nat with (length (replicate k (@None Z) ++ (Some <$> s)) + 0)%nat.
      + rewrite insert_app_r. cbn. by rewrite <- app_assoc.
      + rewrite app_length, replicate_length, fmap_length. unfold buffer_size. lia.
    - rewrite !app_length, replicate_length, fmap_length. unfold buffer_size. cbn. lia. }
  assert (Hc : forall c, fi_c_str (FormatInt object (replicate k None ++ (Some <$> s) ++ [c]) (object, k)) = Ok (x', (object, k))).
  { intros c. unfold fi_c_str. cbn [fi_buffer]. by rewrite Hput. }
  exists x, s, x', (object, k). split; [done|]. split; [done|]. split; [apply Hc|]. split; [|split; [by eapply no_zero|split; [|split; [done|apply Hc]]]].
  - unfold fi_rest. cbn [fi_object fi_buffer x' fst snd]. rewrite decide_True by done.
    rewrite drop_app_ge by (by rewrite replicate_length). rewrite replicate_length, Nat.sub_diag, drop_0.
    change [Some 0] with (Some <$> [0]). by rewrite <- fmap_app, read_all_some.
  - unfold fi_text, fi_size. cbn [fi_object fi_str x' fst snd]. rewrite decide_True by done. cbn [bind].
    replace (buffer_size - 1 - k)%nat with (length s) by (unfold buffer_size; lia).
    unfold fi_read. cbn [fi_object fi_buffer x' fst snd]. rewrite decide_True.
    + by rewrite take_text, read_all_some.
    + split; [done|]. rewrite !app_length, replicate_length, fmap_length. cbn. lia.
Qed.
Print Assumptions C167_c_str.
(** It is what format gives. *)
Theorem C167_as_format E object t z : locale_ok E -> 1 <= bits t <= 64 -> in_range t z = true ->
  (let* x := make_format_int object t z in fi_text x) = vformat E (Args [AScalar (VInt t z)] []) (lit "{}").
Proof.
  intros HE Ht Hz. destruct (C167_text object t z Ht Hz) as (x & s & -> & (ds & Hds & ->) & Hx & _). cbn [bind]. rewrite Hx. symmetry.
  set (A := Args [AScalar (VInt t z)] []). assert (HA : arguments_ok A) by (by apply Forall_singleton).
  assert (Hv0 : finds (args_of A) (ArgAt 0) (One (OInt (signed t) z))) by (by constructor).
  assert (Htt : template_text [Show NextArg None] (lit "{}")) by (apply (template_show NextArg [] [] []); constructor).
  destruct (C119_format E A _ _ HE HA Htt) as (texts & Htexts & ->).
  { split; [left; by repeat constructor|]. constructor; [by eexists|constructor]. }
  inversion Htexts as [|i text is texts' Hi Hnil]; subst i is texts. inversion Hnil; subst texts'.
  inversion Hi as [|w0 fo v text' Hv Hsh]; subst. rewrite (finds_unique _ _ _ _ Hv Hv0) in Hsh.
  inversion Hsh as [v' text' Hp| | | |]; subst. destruct Hp as (ds' & Hds' & ->).
  rewrite (numeral_unique 10 _ _ _ _ ltac:(lia) Hds Hds'). cbn [concat]. by rewrite app_nil_r.
Qed.
Print Assumptions C167_as_format.
(** A copy points into the original: its size and its str are undefined. *)
Theorem C167_copy_refuted object object' t z : object <> object' -> 1 <= bits t <= 64 -> in_range t z = true ->
  exists x, make_format_int object t z = Ok x /\ fi_size (fi_copy object' x) = UB OutOfBounds /\ fi_text (fi_copy object' x) = UB OutOfBounds /\
    fst (fi_data (fi_copy object' x)) = object.
Proof.
  intros Hne Ht Hz. destruct (make_ok object t z Ht Hz) as (s & k & _ & _ & ->). eexists. split; [done|].
  assert (Hs : fi_size (fi_copy object' (FormatInt object (replicate k None ++ (Some <$> s) ++ [None]) (object, k))) = UB OutOfBounds).
  { unfold fi_size, fi_copy. cbn [fi_object fi_str fst snd]. by rewrite decide_False. }
  split; [done|]. split; [|done]. unfold fi_text. by rewrite Hs.
Qed.
Print Assumptions C167_copy_refuted.
Example C167_example :
  in_range (ITy 64 true) (- 2 ^ 63) = true /\
  (let* x := make_format_int 0 (ITy 64 true) (- 2 ^ 63) in fi_text x) = Ok (lit "-9223372036854775808") /\
  (let* x := make_format_int 0 (ITy 64 false) (2 ^ 64 - 1) in fi_text x) = Ok (lit "18446744073709551615") /\
  (let* x := make_format_int 0 int32 (-40) in let* (x, p) := fi_c_str x in fi_rest x p) = Ok (lit "-40" ++ [0]) /\
  (let* x := make_format_int 0 int32 0 in fi_size x) = Ok 1%nat.
Proof. vm_compute. split_and!; reflexivity. Qed.
