(** Proofs about the UTF-8 functions. *)
From Verif Require Import Base.Cpp Model.Utf8 Spec.Utf8Spec.
Set Default Proof Using "Type".
Local Open Scope Z_scope.
Ltac Zify.zify_post_hook ::= Z.to_euclidean_division_equations.

Definition is_byte (b : Z) : Prop := 0 <= b <= 255.

(** ** Bits *)

Lemma lor_add x y k : 0 <= k -> 0 <= y < 2 ^ k -> Z.lor (Z.shiftl x k) y = x * 2 ^ k + y.
Proof.
  intros Hk Hy. rewrite Z.shiftl_mul_pow2 by done. symmetry.
  rewrite Z.add_nocarry_lxor; [apply Z.lxor_lor|]; apply Z.bits_inj'; intros n Hn; rewrite Z.land_spec, Z.bits_0.
  all: destruct (Z.lt_ge_cases n k).
  1,3: rewrite <- Z.shiftl_mul_pow2 by done; rewrite Z.shiftl_spec_low by done; done.
  all: assert (Hb : Z.testbit y n = false); [|by rewrite Hb, andb_false_r].
  all: destruct (decide (y = 0)) as [->|]; [apply Z.bits_0|];
       apply Z.bits_above_log2; [lia|]; assert (Z.log2 y < k) by (apply Z.log2_lt_pow2; lia); lia.
Qed.

Lemma land63 x : Z.land x 63 = x mod 64.
Proof. change 63 with (Z.ones 6). by rewrite Z.land_ones. Qed.

(** The error bits, of the three tests and of the top bits of the last three bytes. *)
Definition err (b6 b7 b8 : bool) (t1 t2 t3 shifte : Z) : Z :=
  Z.shiftr (Z.lxor (Z.lor (Z.lor (Z.lor (Z.lor (Z.lor (bit_if b6 6) (bit_if b7 7)) (bit_if b8 8)) (t1 * 16)) (t2 * 4)) t3) 42) shifte.

Definition err_check (shifte t1 t2 t3 : Z) (b6 b7 b8 : bool) : bool :=
  Bool.eqb (err b6 b7 b8 t1 t2 t3 shifte =? 0)
    (negb b6 && negb b7 && negb b8 && ((4 <? shifte) || (t1 =? 2)) && ((2 <? shifte) || (t2 =? 2)) && ((0 <? shifte) || (t3 =? 2))).

Lemma err_zero b6 b7 b8 t1 t2 t3 shifte :
  0 <= t1 < 4 -> 0 <= t2 < 4 -> 0 <= t3 < 4 -> shifte = 0 \/ shifte = 2 \/ shifte = 4 \/ shifte = 6 ->
  err b6 b7 b8 t1 t2 t3 shifte = 0 <->
  b6 = false /\ b7 = false /\ b8 = false /\ (4 < shifte \/ t1 = 2) /\ (2 < shifte \/ t2 = 2) /\ (0 < shifte \/ t3 = 2).
Proof.
  intros H1 H2 H3 Hs.
  assert (Hall : forallb (fun s => forallb (fun a => forallb (fun b => forallb (fun c =>
     forallb (fun x => forallb (fun y => forallb (fun z => err_check s (Z.of_nat a) (Z.of_nat b) (Z.of_nat c) x y z)
       [true; false]) [true; false]) [true; false]) (seq 0 4)) (seq 0 4)) (seq 0 4)) [0; 2; 4; 6] = true) by (vm_compute; reflexivity).
  rewrite forallb_forall in Hall. specialize (Hall shifte ltac:(cbn; intuition congruence)).
  rewrite forallb_forall in Hall. specialize (Hall (Z.to_nat t1) ltac:(apply in_seq; lia)).
  rewrite forallb_forall in Hall. specialize (Hall (Z.to_nat t2) ltac:(apply in_seq; lia)).
  rewrite forallb_forall in Hall. specialize (Hall (Z.to_nat t3) ltac:(apply in_seq; lia)).
  rewrite forallb_forall in Hall. specialize (Hall b6 ltac:(destruct b6; cbn; auto)).
  rewrite forallb_forall in Hall. specialize (Hall b7 ltac:(destruct b7; cbn; auto)).
  rewrite forallb_forall in Hall. specialize (Hall b8 ltac:(destruct b8; cbn; auto)).
  rewrite !Z2Nat.id in Hall by lia. unfold err_check in Hall. apply Bool.eqb_prop in Hall.
  rewrite <- Z.eqb_eq, Hall. rewrite !andb_true_iff, !orb_true_iff, !negb_true_iff, !Z.ltb_lt, !Z.eqb_eq. tauto.
Qed.

(** ** Decoding *)

(** The length of the code point that starts with [s0], and the code point, from its bytes. *)
Definition lead_len (s0 : Z) : Z :=
  if decide (s0 < 128) then 1 else if decide (s0 < 192) then 0 else if decide (s0 < 224) then 2
  else if decide (s0 < 240) then 3 else if decide (s0 < 248) then 4 else 0.
Definition raw (s0 s1 s2 s3 : Z) : Z :=
  let len := lead_len s0 in
  if len =? 1 then s0
  else if len =? 2 then (s0 - 192) * 64 + s1 mod 64
  else if len =? 3 then (s0 - 224) * 4096 + s1 mod 64 * 64 + s2 mod 64
  else if len =? 4 then (s0 - 240) * 262144 + s1 mod 64 * 4096 + s2 mod 64 * 64 + s3 mod 64
  else s1 mod 64 * 4096 + s2 mod 64 * 64 + s3 mod 64.
Definition min_of (len : Z) : Z :=
  if len =? 1 then 0 else if len =? 2 then 128 else if len =? 3 then 2048
  else if len =? 4 then 65536 else 4194304.
Definition shifte_of (len : Z) : Z :=
  if len =? 1 then 6 else if len =? 2 then 4 else if len =? 3 then 2 else 0.

Lemma top_bits s : is_byte s -> 0 <= s / 64 < 4 /\ Z.land s 192 = s / 64 * 64.
Proof.
  intros Hs. unfold is_byte in Hs. split; [split; [apply Z.div_pos; lia|apply Z.div_lt_upper_bound; lia]|].
  assert (H : forallb (fun n => Z.land (Z.of_nat n) 192 =? Z.of_nat n / 64 * 64) (seq 0 256) = true) by (vm_compute; reflexivity).
  rewrite forallb_forall in H. specialize (H (Z.to_nat s) ltac:(apply in_seq; lia)).
  rewrite Z2Nat.id in H by lia. by apply Z.eqb_eq.
Qed.

Lemma utf8_lengths_ok s0 : is_byte s0 -> get utf8_lengths (Z.to_nat (Z.shiftr s0 3)) = Ok (lead_len s0).
Proof.
  intros Hs. unfold is_byte in Hs.
  assert (H : forallb (fun n => match get utf8_lengths (Z.to_nat (Z.shiftr (Z.of_nat n) 3)) with
                                | Ok l => l =? lead_len (Z.of_nat n) | _ => false end) (seq 0 256) = true) by (vm_compute; reflexivity).
  rewrite forallb_forall in H. specialize (H (Z.to_nat s0) ltac:(apply in_seq; lia)).
  rewrite Z2Nat.id in H by lia. destruct (get utf8_lengths _); try done. apply Z.eqb_eq in H. by subst.
Qed.

Lemma utf8_decode_eq buf p s0 s1 s2 s3 :
  buf !! p = Some s0 -> buf !! (p + 1)%nat = Some s1 -> buf !! (p + 2)%nat = Some s2 -> buf !! (p + 3)%nat = Some s3 ->
  is_byte s0 -> is_byte s1 -> is_byte s2 -> is_byte s3 ->
  let len := lead_len s0 in
  let c := raw s0 s1 s2 s3 in
  utf8_decode buf p = Ok (Nat.add p (Z.to_nat (if decide (len = 0) then 1 else len)), c,
    err (c <? min_of len) (Z.shiftr c 11 =? 27) (1114111 <? c) (s1 / 64) (s2 / 64) (s3 / 64) (shifte_of len)).
Proof.
  intros H0 H1 H2 H3 B0 B1 B2 B3 len c. unfold utf8_decode.
  unfold get at 1. rewrite H0. cbn [bind]. rewrite utf8_lengths_ok by done. cbn [bind]. fold len.
  unfold get at 5 6 7. rewrite H1, H2, H3. cbn [bind].
  destruct (top_bits s1 B1) as [T1 L1], (top_bits s2 B2) as [T2 L2], (top_bits s3 B3) as [T3 L3].
  rewrite L1, L2.
  assert (HS1 : Z.shiftr (s1 / 64 * 64) 2 = s1 / 64 * 16).
  { rewrite Z.shiftr_div_pow2 by lia. change (2 ^ 2) with 4. replace (s1 / 64 * 64) with (s1 / 64 * 16 * 4) by lia. by rewrite Z.div_mul. }
  assert (HS2 : Z.shiftr (s2 / 64 * 64) 4 = s2 / 64 * 4).
  { rewrite Z.shiftr_div_pow2 by lia. change (2 ^ 4) with 16. replace (s2 / 64 * 64) with (s2 / 64 * 4 * 16) by lia. by rewrite Z.div_mul. }
  assert (HS3 : Z.shiftr s3 6 = s3 / 64) by (by rewrite Z.shiftr_div_pow2).
  rewrite HS1, HS2, HS3, !land63. unfold is_byte in *.
  pose proof (Z.mod_pos_bound s1 64 ltac:(lia)) as M1. pose proof (Z.mod_pos_bound s2 64 ltac:(lia)) as M2.
  pose proof (Z.mod_pos_bound s3 64 ltac:(lia)) as M3.
  assert (Hsum : forall a, 0 <= a -> Z.lor (Z.lor (Z.lor (Z.shiftl a 18) (Z.shiftl (s1 mod 64) 12)) (Z.shiftl (s2 mod 64) 6)) (s3 mod 64)
                 = a * 262144 + s1 mod 64 * 4096 + s2 mod 64 * 64 + s3 mod 64).
  { intros a Ha. rewrite (lor_add a _ 18) by (rewrite ?Z.shiftl_mul_pow2 by lia; lia).
    rewrite (Z.shiftl_mul_pow2 (s1 mod 64)) by lia.
    replace (a * 2 ^ 18 + s1 mod 64 * 2 ^ 12) with (Z.shiftl (a * 64 + s1 mod 64) 12) by (rewrite Z.shiftl_mul_pow2 by lia; lia).
    rewrite (lor_add _ _ 12) by (rewrite ?Z.shiftl_mul_pow2 by lia; lia).
    rewrite (Z.shiftl_mul_pow2 (s2 mod 64)) by lia.
    replace ((a * 64 + s1 mod 64) * 2 ^ 12 + s2 mod 64 * 2 ^ 6) with (Z.shiftl (a * 4096 + s1 mod 64 * 64 + s2 mod 64) 6)
      by (rewrite Z.shiftl_mul_pow2 by lia; lia).
    rewrite (lor_add _ _ 6) by lia. lia. }
  assert (Hcase : len = 1 /\ s0 < 128 \/ len = 2 /\ 192 <= s0 < 224 \/ len = 3 /\ 224 <= s0 < 240
                  \/ len = 4 /\ 240 <= s0 < 248 \/ len = 0).
  { unfold len, lead_len. repeat case_decide; lia. }
  unfold c, raw. fold len.
  assert (Hdiv : forall x y k, 0 <= x -> 0 <= y < 2 ^ k -> 0 <= k -> Z.shiftr (x * 2 ^ k + y) k = x).
  { intros x y k Hx Hy Hk. rewrite Z.shiftr_div_pow2 by lia. rewrite Z.div_add_l by lia. rewrite Z.div_small by lia. lia. }
  destruct Hcase as [[Hl Hr]|[[Hl Hr]|[[Hl Hr]|[[Hl Hr]|Hl]]]]; rewrite Hl;
    change (Z.to_nat 1) with 1%nat; change (Z.to_nat 2) with 2%nat; change (Z.to_nat 3) with 3%nat;
    change (Z.to_nat 4) with 4%nat; change (Z.to_nat 0) with 0%nat; cbn [get lookup list_lookup bind].
  - change 127 with (Z.ones 7). rewrite Z.land_ones by lia. rewrite Z.mod_small by lia. rewrite Hsum by lia.
    replace (s0 * 262144 + s1 mod 64 * 4096 + s2 mod 64 * 64 + s3 mod 64)
      with (s0 * 2 ^ 18 + (s1 mod 64 * 4096 + s2 mod 64 * 64 + s3 mod 64)) by lia.
    rewrite Hdiv by lia. done.
  - change 31 with (Z.ones 5). rewrite Z.land_ones by lia.
    rewrite <- (Z.mod_unique s0 (2 ^ 5) 6 (s0 - 192)) by lia. rewrite Hsum by lia.
    replace ((s0 - 192) * 262144 + s1 mod 64 * 4096 + s2 mod 64 * 64 + s3 mod 64)
      with (((s0 - 192) * 64 + s1 mod 64) * 2 ^ 12 + (s2 mod 64 * 64 + s3 mod 64)) by lia.
    rewrite Hdiv by lia. done.
  - change 15 with (Z.ones 4). rewrite Z.land_ones by lia.
    rewrite <- (Z.mod_unique s0 (2 ^ 4) 14 (s0 - 224)) by lia. rewrite Hsum by lia.
    replace ((s0 - 224) * 262144 + s1 mod 64 * 4096 + s2 mod 64 * 64 + s3 mod 64)
      with (((s0 - 224) * 4096 + s1 mod 64 * 64 + s2 mod 64) * 2 ^ 6 + s3 mod 64) by lia.
    rewrite Hdiv by lia. done.
  - change 7 with (Z.ones 3). rewrite Z.land_ones by lia.
    rewrite <- (Z.mod_unique s0 (2 ^ 3) 30 (s0 - 240)) by lia. rewrite Hsum by lia.
    rewrite Z.shiftr_0_r. done.
  - rewrite Z.land_0_r. rewrite Hsum by lia. rewrite Z.shiftr_0_r.
    replace (0 * 262144 + s1 mod 64 * 4096 + s2 mod 64 * 64 + s3 mod 64) with (s1 mod 64 * 4096 + s2 mod 64 * 64 + s3 mod 64) by lia.
    done.
Qed.

Lemma decode_cases s0 s1 s2 s3 :
  is_byte s0 -> is_byte s1 -> is_byte s2 -> is_byte s3 ->
  let len := lead_len s0 in
  let c := raw s0 s1 s2 s3 in
  let e := err (c <? min_of len) (Z.shiftr c 11 =? 27) (1114111 <? c) (s1 / 64) (s2 / 64) (s3 / 64) (shifte_of len) in
  (e = 0 /\ len <> 0 /\ scalar_value c /\ Z.to_nat len = length (encode c) /\ exists t, [s0; s1; s2; s3] = encode c ++ t)
  \/ (e <> 0 /\ forall cp t, scalar_value cp -> [s0; s1; s2; s3] <> encode cp ++ t).
Proof.
  intros B0 B1 B2 B3 len c e. unfold is_byte in *.
  assert (Hsh : Z.shiftr c 11 = c / 2048) by (by rewrite Z.shiftr_div_pow2).
  destruct (top_bits s1 B1) as [T1 _], (top_bits s2 B2) as [T2 _], (top_bits s3 B3) as [T3 _].
  pose proof (err_zero (c <? min_of len) (Z.shiftr c 11 =? 27) (1114111 <? c) (s1 / 64) (s2 / 64) (s3 / 64) (shifte_of len)
    T1 T2 T3 ltac:(unfold shifte_of; repeat match goal with |- context [if ?b then _ else _] => destruct b end; lia)) as He. fold e in He. rewrite Hsh in He.
  rewrite Z.ltb_ge, Z.eqb_neq, Z.ltb_ge in He.
  pose proof (Z.div_mod s1 64 ltac:(lia)) as D1. pose proof (Z.div_mod s2 64 ltac:(lia)) as D2.
  pose proof (Z.div_mod s3 64 ltac:(lia)) as D3.
  pose proof (Z.mod_pos_bound s1 64 ltac:(lia)) as M1. pose proof (Z.mod_pos_bound s2 64 ltac:(lia)) as M2.
  pose proof (Z.mod_pos_bound s3 64 ltac:(lia)) as M3.
  assert (Hcase : len = 1 /\ s0 < 128 \/ len = 2 /\ 192 <= s0 < 224 \/ len = 3 /\ 224 <= s0 < 240
                  \/ len = 4 /\ 240 <= s0 < 248 \/ len = 0 /\ (128 <= s0 < 192 \/ 248 <= s0)).
  { unfold len, lead_len. repeat case_decide; lia. }
  set (x := s1 mod 64) in *. set (y := s2 mod 64) in *. set (z := s3 mod 64) in *.
  set (t1 := s1 / 64) in *. set (t2 := s2 / 64) in *. set (t3 := s3 / 64) in *.
  assert (Hc : c = if len =? 1 then s0
    else if len =? 2 then (s0 - 192) * 64 + x
    else if len =? 3 then (s0 - 224) * 4096 + x * 64 + y
    else if len =? 4 then (s0 - 240) * 262144 + x * 4096 + y * 64 + z
    else x * 4096 + y * 64 + z) by reflexivity.
  clearbody c e x y z t1 t2 t3 len. unfold min_of, shifte_of in He. clear Hsh T1 T2 T3.
  destruct (decide (e = 0)) as [E0|E0].
  - left. apply He in E0 as HE. destruct HE as (Hmin & Hsur & Hmax & H1 & H2 & H3). clear He.
    destruct Hcase as [[Hl Hr]|[[Hl Hr]|[[Hl Hr]|[[Hl Hr]|[Hl Hr]]]]]; subst len; cbn in Hc, Hmin, H1, H2, H3.
    + split_and!; [done|done|split; lia| |]; unfold encode; repeat (case_decide; try lia); [done|]. subst c. by eexists.
    + assert (t1 = 2) by lia. split_and!; [done|done|split; lia| |]; unfold encode; repeat (case_decide; try lia); [done|].
      exists [s2; s3]. cbn. f_equal; [lia|]. f_equal. lia.
    + assert (t1 = 2) by lia. assert (t2 = 2) by lia. split_and!; [done|done|split; lia| |]; unfold encode; repeat (case_decide; try lia); [done|].
      exists [s3]. cbn. f_equal; [lia|]. f_equal; [lia|]. f_equal. lia.
    + assert (t1 = 2) by lia. assert (t2 = 2) by lia. assert (t3 = 2) by lia.
      split_and!; [done|done|split; lia| |]; unfold encode; repeat (case_decide; try lia); [done|].
      exists []. cbn. f_equal; [lia|]. f_equal; [lia|]. f_equal; [lia|]. f_equal. lia.
    + exfalso. lia.
  - right. split; [done|]. intros cp t [Hr Hs] Heq. apply E0, He. clear He E0. unfold encode in Heq.
    destruct Hcase as [[Hl Hlr]|[[Hl Hlr]|[[Hl Hlr]|[[Hl Hlr]|[Hl Hlr]]]]]; subst len; cbn in Hc |- *;
    (destruct (decide (cp < 128)); [|destruct (decide (cp < 2048)); [|destruct (decide (cp < 65536))]]).
    all: injection Heq as E0; intros; try (exfalso; lia).
    all: repeat split; lia.
Qed.

(** ** Encodings *)

Lemma encode_inj cp cp' s s' : scalar_value cp -> scalar_value cp' -> encode cp ++ s = encode cp' ++ s' -> cp = cp'.
Proof.
  intros [H1 _] [H2 _] Heq. unfold encode in Heq.
  destruct (decide (cp < 128)); [|destruct (decide (cp < 2048)); [|destruct (decide (cp < 65536))]];
  (destruct (decide (cp' < 128)); [|destruct (decide (cp' < 2048)); [|destruct (decide (cp' < 65536))]]);
  injection Heq as E0; intros; lia.
Qed.
Lemma encode_length cp : (1 <= length (encode cp) <= 4)%nat.
Proof. unfold encode. repeat case_decide; cbn; lia. Qed.
Lemma encode_byte cp : scalar_value cp -> Forall is_byte (encode cp).
Proof.
  intros [H _]. unfold encode, is_byte.
  destruct (decide (cp < 128)); [|destruct (decide (cp < 2048)); [|destruct (decide (cp < 65536))]];
  repeat constructor; lia.
Qed.
Lemma encode_tail cp i x : scalar_value cp -> encode cp !! S i = Some x -> 128 <= x.
Proof.
  intros [H _]. unfold encode.
  destruct (decide (cp < 128)); [|destruct (decide (cp < 2048)); [|destruct (decide (cp < 65536))]];
  repeat (destruct i as [|i]; cbn; [intros [= <-]; lia|]); done.
Qed.

