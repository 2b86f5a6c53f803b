(** The text of floating-point numbers in a format field: with a precision, an alignment, a sign and so on. *)
From Coq Require Import Strings.String QArith.
From Verif Require Import Base.Cpp Model.Numeric Model.FmtInt Model.Format Model.Dragonbox Model.FloatLayout Model.FloatDigits
  Spec.FormatSpec Spec.FieldSpec Spec.FloatSpec Spec.FloatText Spec.FloatRound Spec.FloatField
  Proofs.FmtIntProofs Proofs.FormatWrite Proofs.FormatValue Proofs.DragonboxProofs Proofs.FloatLayoutProofs Proofs.FloatTextProofs Proofs.FloatPrecisionProofs
  Proofs.FloatFieldProofs Proofs.HexFloatProofs Proofs.FloatRoundTrip Proofs.FloatWriteProofs.
Local Open Scope Z_scope.
Local Notation decimal := FloatSpec.decimal.
Local Notation p10 x := (Qpower (inject_Z 10) x).

(** A double is given by its 64 bits [br], and a float by its 32 bits: the top bit is its sign and the others are its
    magnitude. [E] and [pt] are the locale, which does not matter: the field [f] does not ask for it. [w] and [p] are the
    width and the precision, which is negative if none is given; [wr] and [pc] are what is left of their arguments. *)
Definition floating (I : float_info) (F : FloatSpec.format) : Prop :=
  (I = float_info_double /\ F = binary64) \/ (I = float_info_float /\ F = binary32).
Definition negative (I : float_info) (br : Z) : bool := 2 ^ (carrier_bits I - 1) <=? br.
Definition magnitude_of (I : float_info) (br : Z) : Z := br mod 2 ^ (carrier_bits I - 1).
(** The magnitude of infinity. *)
Definition infinite (F : FloatSpec.format) : Z := (emax F - emin F + 2) * 2 ^ (prec F - 1).
Definition precision_or_6 (p : Z) : Z := if decide (0 <= p) then p else 6.

Lemma magnitude_bounds I F br : floating I F -> 0 <= magnitude_of I br.
Proof. intros HIF. apply Z.mod_pos_bound. destruct HIF as [[-> _]|[-> _]]; done. Qed.
Lemma decimals_point a b p m s : (0 < p \/ a = b) -> decimals_text a p m s -> decimals_text b p m s.
Proof.
  intros Hab (ip & fp & H1 & H2 & H3 & H4 & ->). exists ip, fp. split_and!; try done. f_equal. f_equal.
  destruct Hab as [Hp| ->]; [|done]. by rewrite !decide_True by (by left).
Qed.

(** C130. With f or F, a number is its integer part, the point, and as many decimals as the precision says, 6 if it says
    nothing: it is the number rounded to those decimals, to the nearest, and to the even one of two. The point is there if
    decimals are, or with #. The number is in the field: its sign, the fill, the alignment. *)
Theorem C130_fixed E pt I F out br u f w p wr pc : floating I F -> 0 <= br < 2 ^ carrier_bits I ->
  magnitude_of I br < infinite F -> 0 <= w < 2 ^ 31 -> f_local f = false ->
  let v := value (of_bits F (magnitude_of I br)) in let P := precision_or_6 p in
  (v < p10 (767 - P))%Q ->
  exists m text, nearest_even (v * p10 P) m /\ decimals_text (f_alternate f) P m text /\
    write_float_specs E pt I out br (FFixed u) (specs_of f w p wr pc) = Ok (out ++ number_in_field f w (negative I br) text).
Proof.
  intros HIF Hbr Hm Hw Hloc v P Hv.
  assert (HP : 0 <= P) by (unfold P, precision_or_6; destruct (decide (0 <= p)); lia).
  assert (Hpt : f_alternate f || negb (p =? 0) = true \/ (P = 0 /\ f_alternate f || negb (p =? 0) = f_alternate f)).
  { unfold P, precision_or_6. destruct (Z.eqb_spec p 0) as [-> |]; [right; by rewrite orb_false_r|left; by rewrite orb_true_r]. }
  assert (Hpt2 : 0 < P -> f_alternate f || negb (p =? 0) = true) by (destruct Hpt as [|[? _]]; [done|lia]).
  destruct (fixed_rest E pt I F HIF (magnitude_of I br) (conj (magnitude_bounds I F br HIF) Hm) P u _ HP Hpt2 Hv) as (M & text & H1 & _ & H2 & H3).
  exists M, text. split; [done|]. split.
  - eapply decimals_point; [|exact H2]. destruct (decide (0 < P)) as [|Hz]; [by left|]. destruct Hpt as [Ht|[_ Ht]]; [|by right].
    assert (P = 0) by lia. destruct (Z.eqb_spec p 0) as [-> |Hp0].
    + rewrite orb_false_r in *. by right.
    + unfold P, precision_or_6 in *. destruct (decide (0 <= p)); lia.
  - apply (frame E pt I F); try done. intros out' sp sg Hsp. cbv zeta.
    rewrite (body_fixed E pt I out' _ u f p sp sg Hsp). apply H3. apply Hsp.
Qed.
Print Assumptions C130_fixed.

(** C131. Also with more decimals than that the text stands for the number rounded to them; zeros at the end may be
    missing. *)
Theorem C131_fixed_reads_partial E pt I F out br u f w p wr pc : floating I F -> 0 <= br < 2 ^ carrier_bits I ->
  magnitude_of I br < infinite F -> 0 <= w < 2 ^ 31 -> f_local f = false ->
  let v := value (of_bits F (magnitude_of I br)) in let P := precision_or_6 p in
  (forall x, 0 <= x -> (p10 x <= v)%Q -> (v < p10 (x + 1))%Q -> P + x + 1 <= max_int) ->
  exists m text n e, nearest_even (v * p10 P) m /\ number_text text n e /\ (decimal n e == decimal m (- P))%Q /\
    write_float_specs E pt I out br (FFixed u) (specs_of f w p wr pc) = Ok (out ++ number_in_field f w (negative I br) text).
Proof.
  intros HIF Hbr Hm Hw Hloc v P Hpm.
  assert (HP : 0 <= P) by (unfold P, precision_or_6; destruct (decide (0 <= p)); lia).
  assert (Hpt2 : 0 < P -> f_alternate f || negb (p =? 0) = true).
  { unfold P, precision_or_6. destruct (Z.eqb_spec p 0) as [-> |]; [rewrite decide_True by lia; lia|intros _; by rewrite orb_true_r]. }
  destruct (fixed_rest_reads E pt I F HIF (magnitude_of I br) (conj (magnitude_bounds I F br HIF) Hm) P u _ HP Hpm Hpt2)
    as (M & text & n & e & H1 & H2 & H3 & H4).
  exists M, text, n, e. split; [done|]. split; [done|]. split; [done|].
  apply (frame E pt I F); try done. intros out' sp sg Hsp. cbv zeta.
  rewrite (body_fixed E pt I out' _ u f p sp sg Hsp). apply H4. apply Hsp.
Qed.
Print Assumptions C131_fixed_reads_partial.
(** If the digits before and after the point are more than an int counts, it is an error. *)
Theorem C131_too_many E pt I F out br u f w p wr pc x : floating I F -> (grouping E = [] -> sep E = []) -> 0 <= br < 2 ^ carrier_bits I ->
  magnitude_of I br < infinite F -> 0 <= w < 2 ^ 31 -> -1 <= p <= max_int ->
  let v := value (of_bits F (magnitude_of I br)) in let P := precision_or_6 p in
  0 <= x -> (p10 x <= v)%Q -> (v < p10 (x + 1))%Q -> max_int < P + x + 1 ->
  write_float_specs E pt I out br (FFixed u) (specs_of f w p wr pc) = Throw.
Proof.
  intros HIF HE Hbr Hm Hw Hp v P Hx Hlo Hhi Hbig.
  destruct (write_total E pt I F br (FFixed u) (specs_of f w p wr pc) HIF HE Hbr Hw Hp) as [[_ Hno]|[Ht _]]; [|apply Ht].
  destruct Hno. split; [exact Hm|]. by exists x.
Qed.
Print Assumptions C131_too_many.

Definition plain : env := Env (fun _ _ => true) [] [] 46.
Definition plain_field : field := Field [] None None false false NoCount NoCount false None.
Definition alternate_field : field := Field [] None None true false NoCount NoCount false None.
Definition zero_field : field := Field [] None (Some Plus) false true NoCount NoCount false None.
Definition left_field : field := Field [42] (Some PlLeft) None false false NoCount NoCount false None.
Definition half : Z := 0x3fe0000000000000.

(** Zeros are missing: 0.5 with 1000 decimals, {:.1000f}, has 767 of them. *)
Theorem C131_all_decimals_refuted :
  ~ (forall E pt I F out br u f w p wr pc, floating I F -> 0 <= br < 2 ^ carrier_bits I ->
     magnitude_of I br < infinite F -> 0 <= w < 2 ^ 31 -> p <= 1000 -> f_local f = false ->
     let v := value (of_bits F (magnitude_of I br)) in let P := precision_or_6 p in
     exists m text, nearest_even (v * p10 P) m /\ decimals_text (f_alternate f) P m text /\
       write_float_specs E pt I out br (FFixed u) (specs_of f w p wr pc) = Ok (out ++ number_in_field f w (negative I br) text)).
Proof.
  intros H.
  destruct (H plain 46 float_info_double binary64 [] half false plain_field 0 1000 RNone RNone) as (m & text & _ & Htext & Hrun);
    [by left|done..|].
  change (precision_or_6 1000) with 1000 in Htext. destruct Htext as (ip & fp & _ & _ & Hfp & _ & ->).
  assert (Hlen : match write_float_specs plain 46 float_info_double [] half (FFixed false) (specs_of plain_field 0 1000 RNone RNone) with
    | Ok t => Z.of_nat (length t) | _ => 0 end = 769) by (vm_compute; reflexivity).
  rewrite Hrun in Hlen. cbn [app] in Hlen. unfold number_in_field in Hlen.
  change (zero_padded plain_field) with false in Hlen. cbn iota in Hlen.
  rewrite in_field_none in Hlen by lia.
  change (field_sign plain_field (negative float_info_double half)) with (@nil Z) in Hlen. cbn [app] in Hlen.
  rewrite !app_length, !digit_text_length in Hlen. lia.
Qed.
Print Assumptions C131_all_decimals_refuted.

Definition two_thirds : Z := 0x3fe5555555555555.
Example C130_examples :
  write_float_specs plain 46 float_info_double [] two_thirds (FFixed false) (specs_of plain_field 0 20 RNone RNone) = Ok (lit "0.66666666666666662966") /\
  write_float_specs plain 46 float_info_double [] (half + 2 ^ 63) (FFixed false) (specs_of zero_field 8 (-1) RNone RNone) = Ok (lit "-0.500000") /\
  write_float_specs plain 46 float_info_double [] (half + 2 ^ 63) (FFixed false) (specs_of zero_field 10 0 RNone RNone) = Ok (lit "-000000000") /\
  write_float_specs plain 46 float_info_float [] 0x7f7fffff (FFixed false) (specs_of alternate_field 0 0 RNone RNone)
  = Ok (lit "340282346638528859811704183484516925440.") /\
  write_float_specs plain 46 float_info_double [] 0x4002000000000000 (FFixed false) (specs_of left_field 6 1 RNone RNone) = Ok (lit "2.2***").
Proof. vm_compute. split_and!; reflexivity. Qed.

(** C132. With e or E, a number has one digit before the point and as many after it as the precision says, 6 if it says
    nothing, and an exponent: the digits are those of the number rounded to so many digits. The largest precision is an
    error. *)
Theorem C132_scientific E pt I F out br u f w p wr pc : floating I F -> 0 <= br < 2 ^ carrier_bits I ->
  finite_bits F (magnitude_of I br) -> 0 <= w < 2 ^ 31 -> p < max_int -> f_local f = false ->
  let P := precision_or_6 p in
  exists ds m j text, Z.of_nat (length ds) = P + 1 /\ numeral 10 false m (digit_text ds) /\
    rounded_to (value (of_bits F (magnitude_of I br))) (P + 1) (decimal m j) /\ scientific_text u (f_alternate f) 0 ds j text /\
    write_float_specs E pt I out br (FExp u) (specs_of f w p wr pc) = Ok (out ++ number_in_field f w (negative I br) text).
Proof.
  intros HIF Hbr Hfin Hw Hpm Hloc P. pose proof Hfin as [_ Hm].
  assert (HP : 0 <= P) by (unfold P, precision_or_6; destruct (decide (0 <= p)); lia).
  assert (Hpoint : f_alternate f || negb (p =? 0) = f_alternate f || negb (P =? 0)).
  { unfold P, precision_or_6. destruct (decide (0 <= p)); [done|]. destruct (Z.eqb_spec p 0); [lia|done]. }
  destruct (exp_rest E pt I F HIF (magnitude_of I br) (conj (magnitude_bounds I F br HIF) Hm) P u (f_alternate f) _ Hfin HP Hpoint)
    as (ds & M & j & text & H1 & H2 & H3 & H4 & H5).
  exists ds, M, j, text. split; [done|]. split; [by apply numeral_digits|]. split; [done|]. split; [done|].
  apply (frame E pt I F); try done. intros out' sp sg Hsp. cbv zeta.
  rewrite (body_exp E pt I out' _ u f p sp sg Hsp Hpm). apply H5. apply Hsp.
Qed.
Theorem C132_scientific_zero E pt I F out br u f w p wr pc : floating I F -> 0 <= br < 2 ^ carrier_bits I ->
  magnitude_of I br = 0 -> 0 <= w < 2 ^ 31 -> p < max_int -> f_local f = false ->
  let P := precision_or_6 p in
  write_float_specs E pt I out br (FExp u) (specs_of f w p wr pc)
  = Ok (out ++ number_in_field f w (negative I br)
      ([48] ++ (if decide (0 < P \/ f_alternate f = true) then [46] else []) ++ zeros P ++ (if u then lit "E+00" else lit "e+00"))).
Proof.
  intros HIF Hbr Hm0 Hw Hpm Hloc P.
  assert (HP : 0 <= P) by (unfold P, precision_or_6; destruct (decide (0 <= p)); lia).
  assert (Hpoint : f_alternate f || negb (p =? 0) = f_alternate f || negb (P =? 0)).
  { unfold P, precision_or_6. destruct (decide (0 <= p)); [done|]. destruct (Z.eqb_spec p 0); [lia|done]. }
  assert (Hm : 0 <= magnitude_of I br < infinite F).
  { rewrite Hm0. destruct HIF as [[_ ->]|[_ ->]]; done. }
  apply (frame E pt I F); try done; [apply Hm|]. intros out' sp sg Hsp. cbv zeta.
  rewrite (body_exp E pt I out' _ u f p sp sg Hsp Hpm).
  etransitivity; [apply (zero_exp E pt I F HIF (magnitude_of I br) Hm P u (f_alternate f) _ Hm0 HP Hpoint); apply Hsp|].
  by destruct u.
Qed.
Theorem C132_largest_precision E pt I F out br u f w wr pc : floating I F -> 0 <= br < 2 ^ carrier_bits I ->
  magnitude_of I br < infinite F ->
  write_float_specs E pt I out br (FExp u) (specs_of f w max_int wr pc) = Throw.
Proof. intros HIF Hbr Hm. by apply (exp_throws E pt I F). Qed.
Print Assumptions C132_scientific.
Print Assumptions C132_scientific_zero.
Print Assumptions C132_largest_precision.
Example C132_examples :
  write_float_specs plain 46 float_info_double [] two_thirds (FExp false) (specs_of plain_field 0 20 RNone RNone) = Ok (lit "6.66666666666666629659e-01") /\
  write_float_specs plain 46 float_info_double [] 1 (FExp true) (specs_of zero_field 12 0 RNone RNone) = Ok (lit "+000005E-324") /\
  write_float_specs plain 46 float_info_double [] 0 (FExp false) (specs_of plain_field 14 (-1) RNone RNone) = Ok (lit "  0.000000e+00").
Proof. vm_compute. split_and!; reflexivity. Qed.

(** C133. With g or G, or with a precision and no type, a number is rounded to so many digits as the precision says, 6 if
    it says nothing, and one if it says 0. It is in fixed point if its exponent is from -4 on and below that number of
    digits, and else it has an exponent. Zeros at the end are left out. *)
Theorem C133_general E pt I F out br pr u f w p wr pc : floating I F -> 0 <= br < 2 ^ carrier_bits I ->
  finite_bits F (magnitude_of I br) -> 0 <= w < 2 ^ 31 -> f_local f = false -> f_alternate f = false ->
  pr = FGeneral u \/ (pr = FNone /\ u = false /\ 0 <= p) ->
  let P := Z.max 1 (precision_or_6 p) in
  exists ds m j text, numeral 10 false m (digit_text ds) /\ m mod 10 <> 0 /\
    rounded_to (value (of_bits F (magnitude_of I br))) P (decimal m j) /\ precise_text u false P ds j text /\
    write_float_specs E pt I out br pr (specs_of f w p wr pc) = Ok (out ++ number_in_field f w (negative I br) text).
Proof.
  intros HIF Hbr Hfin Hw Hloc Halt Hpr P. pose proof Hfin as [_ Hm].
  destruct (general_rest E pt I F HIF (magnitude_of I br) (conj (magnitude_bounds I F br HIF) Hm) P u Hfin ltac:(lia))
    as (ds & M & j & text & H1 & H2 & H3 & H4 & H5).
  exists ds, M, j, text. split; [by apply numeral_digits|]. split; [done|]. split; [done|]. split; [done|].
  apply (frame E pt I F); try done. intros out' sp sg Hsp. cbv zeta.
  rewrite (body_general E pt I out' _ pr u f p sp sg Hsp Hpr). rewrite Halt. apply H5. apply Hsp.
Qed.
(** With # they are not. *)
Theorem C133_general_alternate_partial E pt I F out br pr u f w p wr pc : floating I F -> 0 <= br < 2 ^ carrier_bits I ->
  finite_bits F (magnitude_of I br) -> 0 <= w < 2 ^ 31 -> f_local f = false -> f_alternate f = true ->
  pr = FGeneral u \/ (pr = FNone /\ u = false /\ 0 <= p) ->
  let P := Z.max 1 (precision_or_6 p) in let v := value (of_bits F (magnitude_of I br)) in
  exists ds m j text, Z.of_nat (length ds) = P /\ numeral 10 false m (digit_text ds) /\ rounded_to v P (decimal m j) /\
    (P <= 767 \/ (1 <= v)%Q \/ (v < p10 (-4))%Q -> precise_text u true P ds j text) /\
    (exists n e, number_text text n e /\ (decimal n e == decimal m j)%Q) /\
    write_float_specs E pt I out br pr (specs_of f w p wr pc) = Ok (out ++ number_in_field f w (negative I br) text).
Proof.
  intros HIF Hbr Hfin Hw Hloc Halt Hpr P v. pose proof Hfin as [_ Hm].
  destruct (general_rest_alt E pt I F HIF (magnitude_of I br) (conj (magnitude_bounds I F br HIF) Hm) P u Hfin ltac:(lia))
    as (ds & M & j & text & H1 & H2 & H3 & H4 & H4' & H5).
  exists ds, M, j, text. split; [done|]. split; [by apply numeral_digits|]. split; [done|]. split; [done|]. split; [done|].
  apply (frame E pt I F); try done. intros out' sp sg Hsp. cbv zeta.
  rewrite (body_general E pt I out' _ pr u f p sp sg Hsp Hpr). rewrite Halt. apply H5. apply Hsp.
Qed.
Theorem C133_general_zero E pt I F out br pr u f w p wr pc : floating I F -> 0 <= br < 2 ^ carrier_bits I ->
  magnitude_of I br = 0 -> 0 <= w < 2 ^ 31 -> f_local f = false ->
  pr = FGeneral u \/ (pr = FNone /\ u = false /\ 0 <= p) ->
  let P := Z.max 1 (precision_or_6 p) in
  write_float_specs E pt I out br pr (specs_of f w p wr pc)
  = Ok (out ++ number_in_field f w (negative I br) ([48] ++ (if f_alternate f then [46] ++ zeros (P - 1) else []))).
Proof.
  intros HIF Hbr Hm0 Hw Hloc Hpr P.
  assert (Hm : 0 <= magnitude_of I br < infinite F).
  { rewrite Hm0. destruct HIF as [[_ ->]|[_ ->]]; done. }
  apply (frame E pt I F); try done; [apply Hm|]. intros out' sp sg Hsp. cbv zeta.
  rewrite (body_general E pt I out' _ pr u f p sp sg Hsp Hpr).
  apply (zero_general E pt I F HIF (magnitude_of I br) Hm P u (f_alternate f) Hm0). apply Hsp.
Qed.
(** Above 767 digits they are missing for numbers that start after the point: 0.5 with 1000 digits, {:#.1000g}, has 767. *)
Theorem C133_all_digits_refuted :
  ~ (forall E pt I F out br pr u f w p wr pc, floating I F -> 0 <= br < 2 ^ carrier_bits I ->
     finite_bits F (magnitude_of I br) -> 0 <= w < 2 ^ 31 -> f_local f = false -> f_alternate f = true ->
     pr = FGeneral u \/ (pr = FNone /\ u = false /\ 0 <= p) ->
     let P := Z.max 1 (precision_or_6 p) in let v := value (of_bits F (magnitude_of I br)) in
     exists ds m j text, Z.of_nat (length ds) = P /\ numeral 10 false m (digit_text ds) /\ rounded_to v P (decimal m j) /\ precise_text u true P ds j text /\
       write_float_specs E pt I out br pr (specs_of f w p wr pc) = Ok (out ++ number_in_field f w (negative I br) text)).
Proof.
  intros H.
  destruct (H plain 46 float_info_double binary64 [] half (FGeneral false) false alternate_field 0 1000 RNone RNone)
    as (ds & m & j & text & Hl & _ & _ & Htext & Hrun); [by left|done..|by left|].
  change (Z.max 1 (precision_or_6 1000)) with 1000 in *.
  assert (Hge : 1000 <= Z.of_nat (length text)).
  { unfold precise_text in Htext. destruct (decide (-4 <= Z.of_nat (length ds) + j - 1 < 1000)) as [Hx|Hx].
    - subst text. unfold fixed_text. destruct (decide (0 <= j)); [|destruct (decide (0 < Z.of_nat (length ds) + j))];
        rewrite !app_length, !digit_text_length; [lia| |lia]. rewrite take_length, drop_length. lia.
    - destruct Htext as (ex & _ & ->). rewrite !app_length, !digit_text_length. rewrite take_length, drop_length. lia. }
  assert (Hlen : match write_float_specs plain 46 float_info_double [] half (FGeneral false) (specs_of alternate_field 0 1000 RNone RNone) with
    | Ok t => Z.of_nat (length t) | _ => 0 end = 769) by (vm_compute; reflexivity).
  rewrite Hrun in Hlen. cbn [app] in Hlen. unfold number_in_field in Hlen.
  change (zero_padded alternate_field) with false in Hlen. cbn iota in Hlen.
  rewrite in_field_none in Hlen by lia.
  change (field_sign alternate_field (negative float_info_double half)) with (@nil Z) in Hlen. cbn [app] in Hlen.
  lia.
Qed.
Print Assumptions C133_general.
Print Assumptions C133_general_alternate_partial.
Print Assumptions C133_general_zero.
Print Assumptions C133_all_digits_refuted.
Example C133_examples :
  write_float_specs plain 46 float_info_double [] two_thirds (FGeneral false) (specs_of plain_field 0 (-1) RNone RNone) = Ok (lit "0.666667") /\
  write_float_specs plain 46 float_info_double [] half (FGeneral false) (specs_of alternate_field 10 (-1) RNone RNone) = Ok (lit "  0.500000") /\
  write_float_specs plain 46 float_info_double [] 0x412e848000000000 (FGeneral true) (specs_of plain_field 0 (-1) RNone RNone) = Ok (lit "1E+06") /\
  write_float_specs plain 46 float_info_double [] two_thirds FNone (specs_of plain_field 0 3 RNone RNone) = Ok (lit "0.667").
Proof. vm_compute. split_and!; reflexivity. Qed.

(** C134. Without a precision and a type a number has the digits of the shortest decimal that is read as it, as without
    specs: with a sign, a fill and an alignment as the field says. *)
Theorem C134_shortest E pt I F out br f w p wr pc : floating I F -> 0 <= br < 2 ^ carrier_bits I ->
  finite_bits F (magnitude_of I br) -> 0 <= w < 2 ^ 31 -> p < 0 -> f_local f = false ->
  exists s j ds text, shortest (of_bits F (magnitude_of I br)) s j /\ numeral 10 false s (digit_text ds) /\
    precise_text false (f_alternate f) 16 ds j text /\
    write_float_specs E pt I out br FNone (specs_of f w p wr pc) = Ok (out ++ number_in_field f w (negative I br) text).
Proof.
  intros HIF Hbr Hfin Hw Hp Hloc. pose proof Hfin as [_ Hm].
  destruct (shortest_rest E pt I F HIF (magnitude_of I br) (conj (magnitude_bounds I F br HIF) Hm) p (f_alternate f) Hfin Hp)
    as (s & j & ds & text & H1 & H2 & H3 & H4).
  exists s, j, ds, text. split; [done|]. split; [by apply numeral_digits|]. split; [done|].
  apply (frame E pt I F); try done. intros out' sp sg Hsp. cbv zeta.
  rewrite (body_shortest E pt I out' _ f p sp sg Hsp Hp). apply H4. apply Hsp.
Qed.
Theorem C134_zero E pt I F out br f w p wr pc : floating I F -> 0 <= br < 2 ^ carrier_bits I ->
  magnitude_of I br = 0 -> 0 <= w < 2 ^ 31 -> p < 0 -> f_local f = false ->
  write_float_specs E pt I out br FNone (specs_of f w p wr pc)
  = Ok (out ++ number_in_field f w (negative I br) ([48] ++ (if f_alternate f then [46] else []))).
Proof.
  intros HIF Hbr Hm0 Hw Hp Hloc.
  assert (Hm : 0 <= magnitude_of I br < infinite F).
  { rewrite Hm0. destruct HIF as [[_ ->]|[_ ->]]; done. }
  apply (frame E pt I F); try done; [apply Hm|]. intros out' sp sg Hsp. cbv zeta.
  rewrite (body_shortest E pt I out' _ f p sp sg Hsp Hp).
  etransitivity; [apply (zero_general E pt I F HIF (magnitude_of I br) Hm p false (f_alternate f) Hm0); apply Hsp|].
  do 5 f_equal. destruct (f_alternate f); [|done]. unfold zeros. by replace (Z.to_nat (p - 1)) with 0%nat by lia.
Qed.
Print Assumptions C134_shortest.
Print Assumptions C134_zero.
Example C134_examples :
  write_float_specs plain 46 float_info_double [] (two_thirds + 2 ^ 63) FNone (specs_of left_field 22 (-1) RNone RNone) = Ok (lit "-0.6666666666666666***") /\
  write_float_specs plain 46 float_info_float [] 0x3dcccccd FNone (specs_of zero_field 8 (-1) RNone RNone) = Ok (lit "+00000.1") /\
  write_float_specs plain 46 float_info_double [] 0x4341c37937e08000 FNone (specs_of alternate_field 0 (-1) RNone RNone) = Ok (lit "1.e+16").
Proof. vm_compute. split_and!; reflexivity. Qed.

(** C135. Infinity and what is no number are inf and nan, or INF and NAN with E, F, G and A, after the sign. They are in
    the field, but they are not filled with zeros, and without an alignment they are on the left. *)
Theorem C135_nonfinite E pt I F out br pr f w p wr pc : floating I F -> 0 <= br < 2 ^ carrier_bits I ->
  infinite F <= magnitude_of I br -> 0 <= w < 2 ^ 31 ->
  let upper := match pr with FNone => false | FGeneral u | FExp u | FFixed u | FHex u => u end in
  write_float_specs E pt I out br pr (specs_of f w p wr pc)
  = Ok (out ++ nonfinite_in_field f w (negative I br)
      (if decide (magnitude_of I br = infinite F) then (if upper then lit "INF" else lit "inf") else (if upper then lit "NAN" else lit "nan"))).
Proof. intros HIF Hbr Hm Hw. apply (nonfinite_frame E pt I F out br pr f w p wr pc HIF Hbr Hm Hw). Qed.
Print Assumptions C135_nonfinite.
Example C135_examples :
  write_float_specs plain 46 float_info_double [] (inf64 + 2 ^ 63) (FFixed true) (specs_of zero_field 8 2 RNone RNone) = Ok (lit "    -INF") /\
  write_float_specs plain 46 float_info_float [] (inf32 + 1) FNone (specs_of left_field 5 (-1) RNone RNone) = Ok (lit "nan**").
Proof. vm_compute. split_and!; reflexivity. Qed.

(** C136. With a or A, a number is in base 16: n / 16^q * 2^x, where 2^x is the power of two that leaves 1 before the
    point, or for the numbers below the least double that uses all the bits, its own. Without a precision this is exactly
    the number, with as few digits as possible; with one, n is the number rounded to so many digits, and of two nearest
    ones the larger, so that 2 may be before the point. *)
Theorem C136_hexadecimal E pt I F out br u f w p wr pc : floating I F -> 0 <= br < 2 ^ carrier_bits I ->
  magnitude_of I br < infinite F -> 0 <= w < 2 ^ 31 -> f_local f = false ->
  let v := value (of_bits F (magnitude_of I br)) in
  exists q n x text, binary_exponent v x /\
    (0 <= p -> q = p /\ nearest_up (v * Qpower (inject_Z 2) (4 * q - x)) n) /\
    (p < 0 -> 0 <= q /\ (v * Qpower (inject_Z 2) (4 * q - x) == inject_Z n)%Q /\ (q = 0 \/ n mod 16 <> 0)) /\
    hex_text u (f_alternate f) q n x text /\
    write_float_specs E pt I out br (FHex u) (specs_of f w p wr pc) = Ok (out ++ number_in_field f w (negative I br) text).
Proof.
  intros HIF Hbr Hm Hw Hloc v.
  destruct (hex_body E pt I F (magnitude_of I br) u f p HIF (conj (magnitude_bounds I F br HIF) Hm)) as (q & n & x & text & H1 & (H2 & H3 & H4) & H5).
  exists q, n, x, text. split; [done|]. split; [done|]. split; [|split; [done|]].
  - intros Hp. destruct (H4 Hp) as (H6 & H7 & H8). split; [lia|done].
  - by apply (frame E pt I F).
Qed.
(** The zeros that fill a field come before the 0x, so that what is there is no number in base 16 any more: 8 in 8 places,
    {:08a}, is 000x1p+3. *)
Theorem C136_zeros_refuted :
  ~ (forall E pt I F out br u f w p wr pc, floating I F -> 0 <= br < 2 ^ carrier_bits I ->
     magnitude_of I br < infinite F -> 0 <= w < 2 ^ 31 -> f_local f = false -> zero_padded f = true ->
     exists rest, write_float_specs E pt I out br (FHex u) (specs_of f w p wr pc)
       = Ok (out ++ field_sign f (negative I br) ++ [48; if u then 88 else 120] ++ rest)).
Proof.
  intros H. destruct (H plain 46 float_info_double binary64 [] 0x4020000000000000 false
    (Field [] None None false true NoCount NoCount false None) 8 (-1) RNone RNone) as (rest & Hrun); [by left|done..|].
  assert (Hc : write_float_specs plain 46 float_info_double [] 0x4020000000000000 (FHex false)
    (specs_of (Field [] None None false true NoCount NoCount false None) 8 (-1) RNone RNone) = Ok (lit "000x1p+3")) by (vm_compute; reflexivity).
  rewrite Hc in Hrun. by injection Hrun.
Qed.
Print Assumptions C136_hexadecimal.
Print Assumptions C136_zeros_refuted.
Example C136_examples :
  write_float_specs plain 46 float_info_double [] two_thirds (FHex false) (specs_of plain_field 0 (-1) RNone RNone) = Ok (lit "0x1.5555555555555p-1") /\
  write_float_specs plain 46 float_info_double [] (two_thirds + 2 ^ 63) (FHex true) (specs_of left_field 14 2 RNone RNone) = Ok (lit "-0X1.55P-1****") /\
  write_float_specs plain 46 float_info_double [] 0x3fff000000000000 (FHex false) (specs_of alternate_field 0 0 RNone RNone) = Ok (lit "0x2.p+0") /\
  write_float_specs plain 46 float_info_float [] 1 (FHex false) (specs_of plain_field 0 (-1) RNone RNone) = Ok (lit "0x1p-149") /\
  write_float_specs plain 46 float_info_double [] 0 (FHex false) (specs_of plain_field 0 (-1) RNone RNone) = Ok (lit "0x0p-1022").
Proof. vm_compute. split_and!; reflexivity. Qed.

(** C137. 17 digits are enough for a double and 9 for a float: the text is read as the number that was written. With e
    that is a precision of 16 or 8, and with g of 17 or 9. *)
Theorem C137_scientific_reads E pt I F out br u f w p wr pc : floating I F -> 0 <= br < 2 ^ carrier_bits I ->
  finite_bits F (magnitude_of I br) -> 0 <= w < 2 ^ 31 -> p < max_int -> f_local f = false ->
  (F = binary64 -> 16 <= p) -> (F = binary32 -> 8 <= p) ->
  exists text n e, number_text text n e /\ reads_as (decimal n e) (of_bits F (magnitude_of I br)) /\
    write_float_specs E pt I out br (FExp u) (specs_of f w p wr pc) = Ok (out ++ number_in_field f w (negative I br) text).
Proof.
  intros HIF Hbr Hfin Hw Hpm Hloc Hd Hf.
  destruct (C132_scientific E pt I F out br u f w p wr pc HIF Hbr Hfin Hw Hpm Hloc) as (ds & m & j & text & H1 & H2 & H3 & H4 & H5).
  cbv zeta in *. assert (Hp : 0 <= p) by (destruct HIF as [[_ ->]|[_ ->]]; [specialize (Hd eq_refl)|specialize (Hf eq_refl)]; lia).
  unfold precision_or_6 in *. rewrite decide_True in H1, H3 by done.
  apply digits_numeral in H2. destruct H2 as (Hall & Hn & Hne & _).
  destruct (scientific_text_reads u (f_alternate f) 0 ds j text Hne Hall ltac:(lia) ltac:(by left) H4) as (n & e & H6 & H7).
  exists text, n, e. split; [done|]. split; [|done]. eapply reads_proper; [symmetry; exact H7|]. rewrite Hn.
  apply (enough_digits I F _ (p + 1)); try done; intros HF; destruct HIF as [[_ ->]|[_ ->]]; try discriminate HF;
    first [specialize (Hd eq_refl); lia|specialize (Hf eq_refl); lia].
Qed.
Theorem C137_general_reads E pt I F out br pr u f w p wr pc : floating I F -> 0 <= br < 2 ^ carrier_bits I ->
  finite_bits F (magnitude_of I br) -> 0 <= w < 2 ^ 31 -> f_local f = false -> f_alternate f = false ->
  pr = FGeneral u \/ (pr = FNone /\ u = false /\ 0 <= p) ->
  (F = binary64 -> 17 <= p) -> (F = binary32 -> 9 <= p) ->
  exists text n e, number_text text n e /\ reads_as (decimal n e) (of_bits F (magnitude_of I br)) /\
    write_float_specs E pt I out br pr (specs_of f w p wr pc) = Ok (out ++ number_in_field f w (negative I br) text).
Proof.
  intros HIF Hbr Hfin Hw Hloc Halt Hpr Hd Hf.
  destruct (C133_general E pt I F out br pr u f w p wr pc HIF Hbr Hfin Hw Hloc Halt Hpr) as (ds & m & j & text & H1 & _ & H3 & H4 & H5).
  cbv zeta in *. assert (Hp : 9 <= p) by (destruct HIF as [[_ ->]|[_ ->]]; [specialize (Hd eq_refl)|specialize (Hf eq_refl)]; lia).
  unfold precision_or_6 in *. rewrite decide_True in H3, H4 by lia. rewrite Z.max_r in H3, H4 by lia.
  apply digits_numeral in H1. destruct H1 as (Hall & Hn & Hne & _).
  destruct (precise_text_reads u false p ds j text Hne Hall H4) as (n & e & H6 & H7).
  exists text, n, e. split; [done|]. split; [|done]. eapply reads_proper; [symmetry; exact H7|]. rewrite Hn.
  apply (enough_digits I F _ p); try done; intros HF; destruct HIF as [[_ ->]|[_ ->]]; try discriminate HF;
    first [specialize (Hd eq_refl); lia|specialize (Hf eq_refl); lia].
Qed.
Print Assumptions C137_scientific_reads.
Print Assumptions C137_general_reads.
(** With 16 digits these two doubles have the same text. *)
Example C137_sixteen :
  write_float_specs plain 46 float_info_double [] 0x44b52d02c7e14af7 (FExp false) (specs_of plain_field 0 15 RNone RNone)
  = write_float_specs plain 46 float_info_double [] 0x44b52d02c7e14af8 (FExp false) (specs_of plain_field 0 15 RNone RNone) /\
  write_float_specs plain 46 float_info_double [] 0x3fb999999999999a (FExp false) (specs_of plain_field 0 16 RNone RNone) = Ok (lit "1.0000000000000001e-01") /\
  finite_bits binary64 0x44b52d02c7e14af7.
Proof. vm_compute. split_and!; reflexivity. Qed.
