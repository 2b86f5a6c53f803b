(** The buffers that formatted text goes to (fmt/core.h, fmt/format.h): properties C146 to C151. The writes are those that
    formatting makes to a buffer, in any order, number and size; their text (writes_text) is in Spec/BufferSpec.v. *)
From Verif Require Import Base.Cpp Base.Mem Model.FmtBuffer Spec.BufferSpec.
From Verif Require Import Proofs.FmtBufferProofs Proofs.FmtBufferWorld Proofs.FmtBufferEnds.
Local Open Scope Z_scope.

(** ** C146: the text that format returns *)
(** Whatever the size of the array in the buffer, the text is that of the writes, in order. The storage that was there is
    untouched, and the storage of the buffer is released. *)
Theorem C146_text m N ws : exists m', vformat_buffer m N ws = Ok (m', writes_text ws) /\ leaks m' = leaks m /\
  (forall c, (c < length (blocks m))%nat -> blocks m' !! c = blocks m !! c) /\
  (forall c cs, (length (blocks m) <= c)%nat -> blocks m' !! c <> Some (Some cs)).
Proof.
  destruct (vformat_buffer_ok m N ws) as (m' & H1 & H2 & H3 & H4). exists m'. split_and!; [done..|]. intros c cs Hc Hb. apply (H4 c Hc). by exists cs.
Qed.
Print Assumptions C146_text.
(** An array of 2 chars grows twice. *)
Example C146_witness : exists m', vformat_buffer mem0 2 [Push 97; Append [98; 99]; Direct [100; 101]; Reserve 9; Push 102] = Ok (m', [97; 98; 99; 100; 101; 102]).
Proof. eexists. vm_compute. reflexivity. Qed.
(** If formatting throws after some writes, the destructor releases the storage too. *)
Theorem C146_thrown_away m N ws : exists m1 o m', run_writes (memory_buffer m N).1 (memory_buffer m N).2 ws = Ok (m1, o) /\ destroy_buffer m1 o = Ok m' /\
  leaks m' = leaks m /\ (forall c, (c < length (blocks m))%nat -> blocks m' !! c = blocks m !! c) /\
  (forall c cs, (length (blocks m) <= c)%nat -> blocks m' !! c <> Some (Some cs)).
Proof.
  destruct (C146_text m N ws) as (m' & H1 & H2). unfold vformat_buffer in H1. destruct (memory_buffer m N) as [m0 o0]. cbn.
  destruct (run_writes m0 o0 ws) as [[m1 o]| | |]; try done. cbn [bind] in H1. destruct (contents m1 o); try done. cbn [bind] in H1.
  destruct (destroy_buffer m1 o) as [m2| | |] eqn:E; try done. injection H1 as <- _. by exists m1, o, m2.
Qed.
Print Assumptions C146_thrown_away.

(** ** C147: memory buffers that are written to, cleared, resized, moved and destroyed *)
(** Every history of well used buffers runs, every buffer holds the text that the history says (Spec/BufferSpec.v), within
    its capacity, and once all buffers are gone so is all storage. *)
Theorem C147_buffers N l : well_used [] l -> exists m bs ss, act_all N (mem0, []) l = Ok (m, bs) /\ does_all [] l ss /\
  (forall i s, ss !! i = Some (Some s) -> exists o, bs !! i = Some (Some o) /\ contents m o = Ok s /\ size o = Z.of_nat (length s) /\ size o <= capacity o) /\
  leaks m = 0%nat /\ (Forall (eq None) ss -> forall c cs, blocks m !! c <> Some (Some cs)).
Proof.
  intros Hl. destruct (world_acts N mem0 [] [] l (world_start N) Hl) as ([m bs] & Hr & ss & Hd & Hw). exists m, bs, ss. split_and!; [done..| | |].
  - intros i s Hi. destruct (world_at N m bs ss i s Hw Hi) as (o & Ho & Hh). exists o. split_and!; [done|by eapply contents_ok|apply Hh|apply Hh].
  - apply Hw.
  - intros Hnone c cs Hb. destruct Hw as (_ & Hh & _ & Ha & _). destruct (Ha c) as (i & o & Hi & _); [by exists cs|]. specialize (Hh i). rewrite Hi in Hh.
    destruct (ss !! i) as [[w|]|] eqn:Es; try done. eapply Forall_lookup_1 in Es; [|exact Hnone]. done.
Qed.
Print Assumptions C147_buffers.
(** Two buffers change places by way of a third, one with a text that has left its array and one with a text that has not. *)
Definition swap_history : list action :=
  [NewBuffer; WriteTo 0 [Append [97; 98; 99]]; NewBuffer; WriteTo 1 [Push 100]; MoveNew 0; MoveTo 0 1; MoveTo 1 2; Shrink 1 2; WriteTo 0 [Direct [101]; Append [102; 103]]].
Example C147_witness : well_used [] swap_history /\ exists m bs, act_all 2 (mem0, []) swap_history = Ok (m, bs) /\
  (forall o, bs !! 0%nat = Some (Some o) -> contents m o = Ok [100; 101; 102; 103]) /\ (forall o, bs !! 1%nat = Some (Some o) -> contents m o = Ok [97; 98]).
Proof. split; [repeat split; done|]. do 2 eexists. split; [vm_compute; reflexivity|]. split; intros o [= <-]; vm_compute; reflexivity. Qed.
Example C147_witness_gone : well_used [] (swap_history ++ [Destroy 0; Destroy 1; Destroy 2]) /\
  exists m bs, act_all 2 (mem0, []) (swap_history ++ [Destroy 0; Destroy 1; Destroy 2]) = Ok (m, bs) /\ Forall (eq None) (blocks m).
Proof. split; [repeat split; done|]. do 2 eexists. split; [vm_compute; reflexivity|]. repeat constructor. Qed.

(** ** C148: a buffer that was moved from *)
(** The buffer that is moved to has the text; the other one has it too, or is empty. *)
Theorem C148_moved N l i : well_used [] (l ++ [MoveNew i]) ->
  exists m bs ss s rest o p, act_all N (mem0, []) (l ++ [MoveNew i]) = Ok (m, bs) /\ does_all [] l ss /\ ss !! i = Some (Some s) /\
    bs !! i = Some (Some p) /\ last bs = Some (Some o) /\ contents m o = Ok s /\ contents m p = Ok rest /\ (rest = s \/ rest = []).
Proof.
  intros Hu. destruct (C147_buffers N _ Hu) as (m & bs & ss' & Hr & Hd & Hc & _). exists m, bs.
  assert (Hsplit : forall l ss0, does_all ss0 (l ++ [MoveNew i]) ss' -> exists ss, does_all ss0 l ss /\ does ss (MoveNew i) ss').
  { clear. induction l as [|a l IH]; intros ss0 H; cbn in H; inversion H as [|? ? ss1 ? ? Hd Hds]; subst.
    - inversion Hds; subst. exists ss0. split; [constructor|done].
    - destruct (IH _ Hds) as (ss & ? & ?). exists ss. split; [by econstructor|done]. }
  destruct (Hsplit _ _ Hd) as (ss & Hl & Hm). inversion Hm as [| | | |? s rest Hs Hrest| |]; subst. exists ss, s, rest. pose proof (lookup_lt_Some _ _ _ Hs) as Hlt.
  destruct (Hc (length ss) s) as (o & Ho & Hso & _); [rewrite lookup_app_r by (rewrite insert_length; lia); by rewrite insert_length, Nat.sub_diag|].
  destruct (Hc i rest) as (p & Hp & Hsp & _); [rewrite lookup_app_l by (by rewrite insert_length); by apply list_lookup_insert|].
  assert (Hlen : length bs = S (length ss)).
  { destruct (world_acts N mem0 [] [] _ (world_start N) Hu) as ([m2 bs2] & Hr2 & ss2 & Hd2 & Hw2). rewrite Hr in Hr2. injection Hr2 as <- <-.
    assert (Hcount : forall l s0 s0' s1 s2, length s0 = length s0' -> does_all s0 l s1 -> does_all s0' l s2 -> length s1 = length s2).
    { clear. induction l as [|a l IH]; intros s0 s0' s1 s2 Hl H1 H2; inversion H1 as [|? ? t1 ? ? Hd1 Hds1]; inversion H2 as [|? ? t2 ? ? Hd2 Hds2]; subst; [done|].
      eapply IH; [|exact Hds1|exact Hds2]. destruct Hd1; inversion Hd2; subst; rewrite ?app_length, ?insert_length; cbn; lia. }
    destruct Hw2 as [-> _]. rewrite (Hcount _ [] [] ss2 (<[i:=Some rest]> ss ++ [Some s]) eq_refl Hd2 Hd). rewrite app_length, insert_length. cbn. lia. }
  exists o, p. split_and!; try done. rewrite last_lookup, Hlen. done.
Qed.
Print Assumptions C148_moved.
(** It is not always empty, as a string or a vector of C++ would be: a text that fits the array of the buffer stays. This is
    the buffer of the library, with its array of 500 chars. *)
Theorem C148_empty_refuted c : exists m bs p, act_all 500 (mem0, []) [NewBuffer; WriteTo 0 [Push c]; MoveNew 0] = Ok (m, bs) /\
  bs !! 0%nat = Some (Some p) /\ contents m p = Ok [c].
Proof. do 3 eexists. split; [vm_compute; reflexivity|]. split; [reflexivity|]. vm_compute. reflexivity. Qed.
Print Assumptions C148_empty_refuted.
(** A text that has left the array goes. *)
Example C148_witness : exists m bs p, act_all 2 (mem0, []) [NewBuffer; WriteTo 0 [Append [97; 98; 99]]; MoveNew 0] = Ok (m, bs) /\
  bs !! 0%nat = Some (Some p) /\ contents m p = Ok [].
Proof. do 3 eexists. split; [vm_compute; reflexivity|]. split; reflexivity. Qed.

(** ** C149: format_to_n into an array *)
(** With room for [n] chars from cell [i] of [b] on: the first [n] chars of the text are there and no other cell of the
    storage changed, the returned iterator is past them, and the returned size is that of the whole text. *)
Theorem C149_format_to_n m b cs i n ws : blk m b cs -> 0 <= n -> (i + Z.to_nat n <= length cs)%nat ->
  exists m' cs', format_to_n m b i n ws = Ok (m', (i + Nat.min (Z.to_nat n) (length (writes_text ws)))%nat, Z.of_nat (length (writes_text ws))) /\
    blk m' b cs' /\ written_at i (take (Z.to_nat n) (writes_text ws)) cs cs' /\ as_before (eq b) m m'.
Proof. apply format_to_n_ok. Qed.
Print Assumptions C149_format_to_n.
(** Two chars in the middle of an array of four, then one char of a longer text. *)
Example C149_witness : exists m', format_to_n (Mem [Some [Raw; Raw; Raw; Live 7]] 0) 0 1 2 [Push 97; Append [98; 99; 100]; Direct [101]] = Ok (m', 3%nat, 5) /\
  blocks m' !! 0%nat = Some (Some [Raw; Live 97; Live 98; Live 7]).
Proof. eexists. split; [vm_compute; reflexivity|]. reflexivity. Qed.

(** ** C150: the other outputs take the same text *)
(** An array with room for the text. *)
Theorem C150_array m b cs i ws : blk m b cs -> (i + length (writes_text ws) <= length cs)%nat -> Z.of_nat (length cs) < size_max ->
  exists m' cs', format_to_array m b i ws = Ok (m', (i + length (writes_text ws))%nat) /\
    blk m' b cs' /\ written_at i (writes_text ws) cs cs' /\ as_before (eq b) m m'.
Proof. apply format_to_array_ok. Qed.
Print Assumptions C150_array.
(** Any other output iterator: it is given the text, or as much of it as format_to_n allows. *)
Theorem C150_iterator m ws : exists m', format_to_iterator m None ws = Ok (m', writes_text ws, 0) /\ as_before (fun _ => False) m m'.
Proof. destruct (format_to_iterator_ok m None ws) as (m' & H); [done|]. by exists m'. Qed.
Print Assumptions C150_iterator.
Theorem C150_iterator_n m n ws : 0 <= n -> exists m', format_to_iterator m (Some n) ws = Ok (m', take (Z.to_nat n) (writes_text ws), Z.of_nat (length (writes_text ws))) /\
  as_before (fun _ => False) m m'.
Proof. intros Hn. destruct (format_to_iterator_ok m (Some n) ws) as (m' & H); [by intros ? [= <-]|]. by exists m'. Qed.
Print Assumptions C150_iterator_n.
(** formatted_size. *)
Theorem C150_size m ws : exists m', formatted_size m ws = Ok (m', Z.of_nat (length (writes_text ws))) /\ as_before (fun _ => False) m m'.
Proof. apply formatted_size_ok. Qed.
Print Assumptions C150_size.
(** An array of formatted_size chars has room for the text, and no smaller one has. *)
Theorem C150_size_fits m ws m' n : formatted_size m ws = Ok (m', n) ->
  forall m b, blk m b (replicate (Z.to_nat n) Raw) -> n < size_max -> exists m', format_to_array m b 0 ws = Ok (m', Z.to_nat n) /\ blk m' b (Live <$> writes_text ws).
Proof.
  intros Hf m1 b Hb Hn. destruct (formatted_size_ok m ws) as (m2 & H & _). rewrite Hf in H. injection H as _ ->. rewrite Nat2Z.id in *.
  destruct (format_to_array_ok m1 b _ 0 ws Hb) as (m3 & cs & H & Hb3 & Hw & _); [by rewrite replicate_length|by rewrite replicate_length|]. exists m3. split; [done|].
  destruct Hw as [Hl Hw]. rewrite replicate_length in Hl. replace (Live <$> writes_text ws) with cs; [done|]. apply list_eq. intros k. rewrite Hw, list_lookup_fmap.
  destruct (decide (0 <= k < 0 + length (writes_text ws))%nat); [by rewrite Nat.sub_0_r|]. rewrite !lookup_ge_None_2; [done|lia|rewrite replicate_length; lia].
Qed.
Print Assumptions C150_size_fits.
Example C150_witness : exists m', formatted_size mem0 [Append (replicate 300 97); Push 98; Direct (replicate 3 99)] = Ok (m', 304) /\
  exists m', format_to_iterator mem0 (Some 2) [Append (replicate 300 97); Push 98; Direct (replicate 3 99)] = Ok (m', [97; 97], 304).
Proof. eexists. split; [vm_compute; reflexivity|]. eexists. vm_compute. reflexivity. Qed.
(** Without the room the array is overrun: format_to does not know its size. *)
Example C150_room_needed : exists m b cs ws, blk m b cs /\ format_to_array m b 0 ws = UB OutOfBounds.
Proof. exists (Mem [Some [Raw; Raw]] 0), 0%nat, [Raw; Raw], [Append [97; 98; 99]]. split; [done|]. vm_compute. reflexivity. Qed.

(** ** C151: the chars of a buffer are appended to itself *)
(** The text is in the array of the buffer object, and not in storage that was allocated. *)
Definition in_place (o : buffer) : Prop := fl o = Memory (block_of o).
Lemma fresh_holds m N ws m1 o : run_writes (memory_buffer m N).1 (memory_buffer m N).2 ws = Ok (m1, o) -> holds N m1 o (writes_text ws).
Proof.
  unfold memory_buffer. destruct (alloc m N) as [D m0] eqn:E. cbn. intros Hr. pose proof (alloc_blk _ _ _ _ E) as HD.
  destruct (memory_writes N m0 (Buffer (Memory D) D 0 0 (Z.of_nat N)) [] ws) as (x & Hx & Hh).
  { split_and!; try done; cbn; [lia|exists (replicate N Raw); split; [done|apply replicate_length]|]. exists (replicate N Raw). split_and!; [done|rewrite replicate_length; lia|done]. }
  rewrite Hr in Hx. injection Hx as <-. by destruct Hh.
Qed.
Lemma in_place_iff N m o w : holds N m o w -> in_place o <-> block_of o = store_of o.
Proof. intros (Hf & _). unfold in_place. rewrite Hf. split; [by intros [= H]|by intros ->]. Qed.
(** push_back of a char of the buffer: it is appended if there is room, or if the text is in place. Otherwise the reference
    is to storage that was released. *)
Theorem C151_push_partial m N ws m1 o k c : run_writes (memory_buffer m N).1 (memory_buffer m N).2 ws = Ok (m1, o) -> writes_text ws !! k = Some c ->
  (size o < capacity o \/ in_place o ->
    exists m2 o2, push_back m1 o (from_memory (block_of o) (cell_of o + k)) = Ok (m2, o2) /\ contents m2 o2 = Ok (writes_text ws ++ [c])) /\
  (~ (size o < capacity o \/ in_place o) -> push_back m1 o (from_memory (block_of o) (cell_of o + k)) = UB UseAfterFree).
Proof.
  intros Hr%fresh_holds Hk. pose proof (push_own N m1 o _ k c Hr Hk) as H. rewrite (in_place_iff N m1 o _ Hr).
  destruct (decide (size o < capacity o \/ block_of o = store_of o)); split; intros Hc; try done.
  destruct H as ([m2 o2] & H & Hh & _). exists m2, o2. split; [done|]. by eapply contents_ok.
Qed.
Print Assumptions C151_push_partial.
(** append of a range of the buffer. *)
Theorem C151_append_partial m N ws m1 o k n : run_writes (memory_buffer m N).1 (memory_buffer m N).2 ws = Ok (m1, o) ->
  (k + n <= length (writes_text ws))%nat -> (0 < n)%nat ->
  (size o + Z.of_nat n <= capacity o \/ in_place o ->
    exists m2 o2, append m1 o n (from_memory (block_of o) (cell_of o + k)) = Ok (m2, o2) /\ contents m2 o2 = Ok (writes_text ws ++ take n (drop k (writes_text ws)))) /\
  (~ (size o + Z.of_nat n <= capacity o \/ in_place o) -> append m1 o n (from_memory (block_of o) (cell_of o + k)) = UB UseAfterFree).
Proof.
  intros Hr%fresh_holds Hk Hn. pose proof (append_own N m1 o _ k n Hr Hk Hn) as H. rewrite (in_place_iff N m1 o _ Hr).
  destruct (decide (size o + Z.of_nat n <= capacity o \/ block_of o = store_of o)); split; intros Hc; try done.
  destruct H as ([m2 o2] & H & Hh & _). exists m2, o2. split; [done|]. by eapply contents_ok.
Qed.
Print Assumptions C151_append_partial.
(** Both happen: a text of two chars in place is doubled, and one of three chars that left the array is not. *)
Example C151_witness : exists m o m2 o2, run_writes (memory_buffer mem0 2).1 (memory_buffer mem0 2).2 [Append [97; 98]] = Ok (m, o) /\ in_place o /\
  append m o 2 (from_memory (block_of o) (cell_of o)) = Ok (m2, o2) /\ contents m2 o2 = Ok [97; 98; 97; 98].
Proof. do 4 eexists. split_and!; [vm_compute; reflexivity..|]. vm_compute. reflexivity. Qed.
Theorem C151_own_chars_refuted : exists N ws m o, run_writes (memory_buffer mem0 N).1 (memory_buffer mem0 N).2 ws = Ok (m, o) /\ writes_text ws !! 0%nat = Some 97 /\
  push_back m o (from_memory (block_of o) (cell_of o)) = UB UseAfterFree /\ append m o 1 (from_memory (block_of o) (cell_of o)) = UB UseAfterFree.
Proof. exists 2%nat, [Append [97; 98]; Push 99]. do 2 eexists. split_and!; vm_compute; reflexivity. Qed.
Print Assumptions C151_own_chars_refuted.
