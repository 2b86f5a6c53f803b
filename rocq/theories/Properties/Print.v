(** print and println (fmt/core.h, fmt/format-inl.h, format.hpp): properties C152 and C153. *)
From Coq Require Import Strings.String.
From Verif Require Import Base.Cpp Model.Format Model.Print.
Local Open Scope Z_scope.

(** ** C152: what is printed is the text that format returns *)
(** To a stream that takes everything: the text follows what was there. println adds a newline. *)
Theorem C152_print E A s t w : vformat E A s = Ok t -> print E A s (Stream w None) = (Stream (w ++ t) None, Ok tt).
Proof.
  intros H. unfold print, vprint. rewrite H. unfold fwrite_fully, fwrite. cbn. rewrite firstn_all. rewrite decide_False by lia. done.
Qed.
Print Assumptions C152_print.
Lemma line_text E t : vformat E (Args [AScalar (VStr t)] []) [123; 125; 10] = Ok (t ++ [10]).
Proof. cbv -[app]. reflexivity. Qed.
Theorem C152_println E A s t w : vformat E A s = Ok t -> println E A s (Stream w None) = (Stream (w ++ t ++ [10]) None, Ok tt).
Proof. intros H. unfold println. rewrite H. apply C152_print, line_text. Qed.
Print Assumptions C152_println.
(** If format throws, so do they, and nothing is printed. *)
Theorem C152_throws E A s f : vformat E A s = Throw -> print E A s f = (f, Throw) /\ println E A s f = (f, Throw).
Proof. intros H. unfold print, vprint, println. by rewrite H. Qed.
Print Assumptions C152_throws.
Definition no_grouping : env := Env (fun _ _ => true) [] [] 46.
Example C152_witness : println no_grouping (Args [AScalar (VBool true)] []) [60; 123; 125; 62] (Stream [33] None) = (Stream [33; 60; 116; 114; 117; 101; 62; 10] None, Ok tt) /\
  vformat no_grouping (Args [] []) [60; 123; 125; 62] = Throw.
Proof. split; vm_compute; reflexivity. Qed.

(** ** C153: streams that take only so much, and histories *)
(** A call that succeeds printed everything, and one that throws printed a proper part of it, or format threw. *)
Definition line_of (p : printing) (t : list Z) : list Z := match p with Print _ _ => t | Println _ _ => t ++ [10] end.
Definition text_of (E : env) (p : printing) : res (list Z) := match p with Print A s | Println A s => vformat E A s end.
Lemma print_cases E p t f : text_of E p = Ok t -> run_printing E p f = fwrite_fully f (line_of p t).
Proof.
  destruct p as [A s|A s]; cbn; intros H; unfold print, vprint, println; rewrite H; [done|]. unfold print, vprint. by rewrite line_text.
Qed.
Theorem C153_room E p t w n : text_of E p = Ok t ->
  run_printing E p (Stream w (Some n)) =
    if decide (length (line_of p t) <= n)%nat then (Stream (w ++ line_of p t) (Some (n - length (line_of p t))%nat), Ok tt)
    else (Stream (w ++ take n (line_of p t)) (Some 0%nat), Throw).
Proof.
  intros H. rewrite (print_cases E p t _ H). unfold fwrite_fully, fwrite. cbn. destruct (decide (length (line_of p t) <= n)%nat) as [Hle|Hgt].
  - rewrite Nat.min_r by done. rewrite firstn_all, decide_False by lia. done.
  - rewrite Nat.min_l by lia. rewrite decide_True by lia. by rewrite Nat.sub_diag.
Qed.
Print Assumptions C153_room.
Example C153_witness : run_printing no_grouping (Println (Args [AScalar (VBool true)] []) [123; 125]) (Stream [] (Some 4%nat)) = (Stream [116; 114; 117; 101] (Some 0%nat), Throw).
Proof. vm_compute. reflexivity. Qed.

(** A history of calls: the stream has the lines of those whose text could be made, one after the other and in the order of
    the calls, and exactly those return. *)
Definition printed (E : env) (p : printing) : list Z := match text_of E p with Ok t => line_of p t | _ => [] end.
Theorem C153_history E ps w : Forall (fun p => text_of E p = Throw \/ exists t, text_of E p = Ok t) ps ->
  run_printings E ps (Stream w None) =
    (Stream (w ++ concat (map (printed E) ps)) None, map (fun p => match text_of E p with Ok _ => Ok tt | _ => Throw end) ps).
Proof.
  revert w. induction ps as [|p ps IH]; intros w H; cbn [run_printings map concat]; [by rewrite app_nil_r|]. inversion H as [|? ? Hp Hps]; subst.
  assert (Hrun : run_printing E p (Stream w None) = (Stream (w ++ printed E p) None, match text_of E p with Ok _ => Ok tt | _ => Throw end)).
  { unfold printed. destruct Hp as [Ht|[t Ht]]; rewrite Ht.
    - rewrite app_nil_r. destruct p as [A s|A s]; cbn in *; unfold print, vprint, println; by rewrite Ht.
    - rewrite (print_cases E p t _ Ht). unfold fwrite_fully, fwrite. cbn. by rewrite firstn_all, decide_False by lia. }
  rewrite Hrun, IH by done. by rewrite <- app_assoc.
Qed.
Print Assumptions C153_history.
Example C153_history_witness :
  run_printings no_grouping [Println (Args [] []) [97]; Print (Args [] []) [98; 123]; Print (Args [AScalar (VBool false)] []) [123; 125]] (Stream [] None) =
    (Stream [97; 10; 102; 97; 108; 115; 101] None, [Ok tt; Throw; Ok tt]).
Proof. vm_compute. reflexivity. Qed.
