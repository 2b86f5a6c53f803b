(** Enum, Maybe and Tuple (enum.hpp, maybe.hpp, meta.hpp): properties C53-C60, C93, C94. *)
From Verif Require Import Base.Cpp Model.Enum Model.Maybe.
From Verif Require Import Spec.EnumSpec Proofs.EnumProofs Proofs.MaybeProofs.

(** ** C53, C54: dispatch *)

(** With 1 to 128 alternatives the switch calls the case of the index. *)
Theorem C53_dispatch {X} n i (case : nat -> res X) :
  1 <= n <= 128 -> i < n -> enum_switch n i case = case i.
Proof. intros Hn Hi. apply switch_ok; lia. Qed.
Print Assumptions C53_dispatch.

Example C53_example : enum_switch 5 3 (fun i => Ok (10 * i)) = Ok 30 /\
  enum_switch 128 127 (fun i => Ok i) = Ok 127.
Proof. split; reflexivity. Qed.

(** C54, false of the code: for 129 to 255 alternatives the compile-time recursion that sizes the
    switch never ends, and with 256 the count wraps to 0, for which there is no switch. *)
Theorem C54_256_alternatives_refuted :
  (forall n fuel, 129 <= n <= 255 -> power_2_ceiling fuel n 2 = None) /\
  (forall (alts : list nat) X i (case : nat -> res X), 129 <= length alts <= 256 ->
     enum_switch (alt_num alts) i case = Diverge).
Proof.
  split.
  - intros n fuel Hn. by apply ceiling_never.
  - intros alts X i case [Hlo Hhi]. unfold alt_num. destruct (decide (length alts = 256)) as [->|Hne].
    + reflexivity.
    + rewrite Nat.mod_small by lia. unfold enum_switch. by rewrite (ceiling_never (length alts)) by lia.
Qed.
Print Assumptions C54_256_alternatives_refuted.

Example C54_example : length (seq 0 200) = 200 /\ power_2_ceiling 7 128 2 = Some 127.
Proof. split; reflexivity. Qed.

(** C54 for the counts that work. *)
Theorem C54_128_alternatives_partial {X} (alts : list nat) i (case : nat -> res X) :
  1 <= length alts <= 128 -> i < length alts -> enum_switch (alt_num alts) i case = case i.
Proof. intros Hn Hi. rewrite alt_num_eq by done. apply switch_ok; lia. Qed.
Print Assumptions C54_128_alternatives_partial.

(** ** C55: what an Enum reports *)

(** After any history of construction, copies, moves, assignments, writes and destructions, every
    live object reports the position of the type of its value, returns the value through get, and
    throws for every other alternative. *)
Theorem C55_enum_reads {V} alts (d : V) mvd h s :
  1 <= length alts <= 128 -> spec_run alts d mvd [] h = Some s ->
  exists m, e_run alts d mvd h no_objects = Ok m /\
  forall i t v, s !! i = Some (Some (t, v)) ->
    (exists k, e_index i m = Ok k /\ position alts t k) /\
    e_get alts t i m = Ok v /\
    (forall t', t' ∈ alts -> t' <> t -> e_get alts t' i m = Throw) /\
    (forall k, k < length alts -> position alts t k -> e_get_at alts k i m = Ok v) /\
    (forall k, k < length alts -> ~ position alts t k -> e_get_at alts k i m = Throw) /\
    (exists m', e_take alts mvd t i m = Ok (v, m')).
Proof.
  intros Ha Hs. destruct (history_ok alts d mvd Ha h s Hs) as (m & Hm & Hr). exists m. split; [done|].
  intros i t v Hi. assert (t ∈ alts) as Ht by (by eapply (rep_alts _ _ _ Hr), held_lookup). split_and!.
  - by eapply index_ok.
  - erewrite (get_ok alts); eauto. by rewrite decide_True.
  - intros t' Ht' Hne. erewrite (get_ok alts); eauto. by rewrite decide_False.
  - intros k Hk. destruct (lookup_lt_is_Some_2 alts k Hk) as [t' Ht'].
    by destruct (get_at_ok alts Ha s m i t v k t' Hr Hi Ht').
  - intros k Hk. destruct (lookup_lt_is_Some_2 alts k Hk) as [t' Ht'].
    by destruct (get_at_ok alts Ha s m i t v k t' Hr Hi Ht').
  - by eapply take_value_ok.
Qed.
Print Assumptions C55_enum_reads.

(** match runs the branch overload resolution selects for the held alternative, on the held
    value. *)
Theorem C55_enum_match {V W R} alts (d : V) mvd h s conv (pat : list (branch V W R)) :
  1 <= length alts <= 128 -> spec_run alts d mvd [] h = Some s ->
  exists m, e_run alts d mvd h no_objects = Ok m /\
  forall i t v w, s !! i = Some (Some (t, v)) ->
    (forall p f, select conv pat t = Some (Typed p f) -> e_match alts conv pat i m w = f v w) /\
    (forall f, select conv pat t = Some (Wild f) -> e_match alts conv pat i m w = f w).
Proof.
  intros Ha Hs. destruct (history_ok alts d mvd Ha h s Hs) as (m & Hm & Hr). exists m. split; [done|].
  intros i t v w Hi. split.
  - intros p f Hb. by rewrite (match_ok alts Ha conv s m i t v pat _ w Hr Hi Hb).
  - intros f Hb. by rewrite (match_ok alts Ha conv s m i t v pat _ w Hr Hi Hb).
Qed.
Print Assumptions C55_enum_match.

(** A history with every operation, over three alternatives of which one stands twice. *)
Definition ex_alts := [7; 3; 7; 5].
Definition ex_history : list (eop nat) :=
  [NewDefault; NewFrom false 3 30; NewFrom true 5 50; NewCopy 1; NewMove 2; Assign false 0 1;
   Assign true 1 4; Assign false 3 3; SetValue 5 1 51; TakeValue 3 0; Destroy 2; NewCopy 1].
Definition ex_mem : emem nat := EMem
  [Some (EObj 1 (Some (3, 0))); Some (EObj 3 (Some (5, 51))); None; Some (EObj 1 (Some (3, 30)));
   Some (EObj 3 (Some (5, 0))); Some (EObj 3 (Some (5, 51)))] [5; 5; 3; 5; 3; 5; 3; 7] [5; 3; 7].
Example C55_example : spec_run ex_alts 70 (fun _ _ => 0) [] ex_history =
  Some [Some (3, 0); Some (5, 51); None; Some (3, 30); Some (5, 0); Some (5, 51)] /\
  1 <= length ex_alts <= 128 /\ e_run ex_alts 70 (fun _ _ => 0) ex_history no_objects = Ok ex_mem.
Proof. split_and!; [reflexivity|simpl; lia..|reflexivity]. Qed.

(** ** C56: every value is destroyed exactly once *)

(** No history has undefined behaviour (the model reports a destructor of the wrong alternative
    and a destroyed or missing value as such), and at every point the alternatives constructed are
    those destroyed and those now held. *)
Theorem C56_enum_lifetimes {V} alts (d : V) mvd h s :
  1 <= length alts <= 128 -> spec_run alts d mvd [] h = Some s ->
  exists m, e_run alts d mvd h no_objects = Ok m /\
    e_ctors m ≡ₚ e_dtors m ++ held_types s.
Proof.
  intros Ha Hs. destruct (history_ok alts d mvd Ha h s Hs) as (m & Hm & [_ _ He]). eauto.
Qed.
Print Assumptions C56_enum_lifetimes.

(** When all objects are gone, exactly the constructed values have been destroyed. *)
Theorem C56_enum_all_destroyed {V} alts (d : V) mvd h s :
  1 <= length alts <= 128 -> spec_run alts d mvd [] h = Some s -> Forall (fun x => x = None) s ->
  exists m, e_run alts d mvd h no_objects = Ok m /\ e_ctors m ≡ₚ e_dtors m.
Proof.
  intros Ha Hs Hn. destruct (C56_enum_lifetimes alts d mvd h s Ha Hs) as (m & Hm & He).
  exists m. split; [done|]. rewrite He. replace (held_types s) with (@nil nat); [by rewrite app_nil_r|].
  clear -Hn. induction Hn as [|x s -> _ IH]; [done|]. exact IH.
Qed.
Print Assumptions C56_enum_all_destroyed.

Example C56_example : spec_run ex_alts 70 (fun _ _ => 0) []
    (ex_history ++ [Destroy 0; Destroy 1; Destroy 3; Destroy 4; Destroy 5]) =
    Some [None; None; None; None; None; None] /\
  e_run ex_alts 70 (fun _ _ => 0) (ex_history ++ [Destroy 0; Destroy 1; Destroy 3; Destroy 4; Destroy 5])
    no_objects = Ok (EMem [None; None; None; None; None; None]
      [5; 5; 3; 5; 3; 5; 3; 7] [5; 5; 3; 5; 3; 5; 3; 7]).
Proof. split; reflexivity. Qed.

(** ** C57: equality *)
Theorem C57_enum_equality {V} alts (d : V) mvd h s eqb :
  1 <= length alts <= 128 -> spec_run alts d mvd [] h = Some s ->
  exists m, e_run alts d mvd h no_objects = Ok m /\
  forall i j t v t' v', s !! i = Some (Some (t, v)) -> s !! j = Some (Some (t', v')) ->
    exists b, e_eq alts eqb i j m = Ok b /\ e_neq alts eqb i j m = Ok (negb b) /\
      (b = true <-> t = t' /\ eqb t v v' = true).
Proof.
  intros Ha Hs. destruct (history_ok alts d mvd Ha h s Hs) as (m & Hm & Hr). exists m. split; [done|].
  intros i j t v t' v' Hi Hj. eexists. unfold e_neq.
  rewrite (eq_ok alts Ha s m i j t v t' v' eqb Hr Hi Hj). split; [done|]. split; [done|].
  by rewrite andb_true_iff, bool_decide_eq_true.
Qed.
Print Assumptions C57_enum_equality.

Example C57_example :
  e_eq ex_alts (fun _ => Nat.eqb) 1 5 ex_mem = Ok true /\
  e_eq ex_alts (fun _ => Nat.eqb) 0 3 ex_mem = Ok false /\
  e_eq ex_alts (fun _ _ _ => true) 0 1 ex_mem = Ok false.
Proof. split_and!; reflexivity. Qed.

(** ** C58: branches *)

(** A branch declared for the alternative runs, whatever convertible branches and wild card there
    are beside it. *)
Theorem C58_exact_branch {V W R} alts (d : V) mvd h s conv (pat : list (branch V W R)) :
  1 <= length alts <= 128 -> spec_run alts d mvd [] h = Some s ->
  exists m, e_run alts d mvd h no_objects = Ok m /\
  forall i t v w k f, s !! i = Some (Some (t, v)) -> (forall p, conv p t = Some 0 <-> p = t) ->
    pat !! k = Some (Typed t f) ->
    (forall l p g, pat !! l = Some (Typed p g) -> l <> k -> p <> t) ->
    e_match alts conv pat i m w = f v w.
Proof.
  intros Ha Hs. destruct (C55_enum_match alts d mvd h s conv pat Ha Hs) as (m & Hm & H).
  exists m. split; [done|]. intros i t v w k f Hi Hc Hk Hu.
  apply (H i t v w Hi) with (p := t). by apply (select_typed _ _ _ k).
Qed.
Print Assumptions C58_exact_branch.

(** Otherwise the wild card runs. *)
Theorem C58_wild_card {V W R} alts (d : V) mvd h s conv (pat : list (branch V W R)) :
  1 <= length alts <= 128 -> spec_run alts d mvd [] h = Some s ->
  exists m, e_run alts d mvd h no_objects = Ok m /\
  forall i t v w pat' f, s !! i = Some (Some (t, v)) -> (forall p, conv p t = Some 0 <-> p = t) ->
    pattern_check alts conv pat = true -> pat = pat' ++ [Wild f] ->
    (forall l g, pat !! l <> Some (Typed t g)) ->
    e_match alts conv pat i m w = f w.
Proof.
  intros Ha Hs. destruct (C55_enum_match alts d mvd h s conv pat Ha Hs) as (m & Hm & H).
  exists m. split; [done|]. intros i t v w pat' f Hi Hc Hp -> Hn.
  apply (H i t v w Hi). apply (select_wild _ _ _ (length pat')); [done|by apply list_lookup_middle| |done].
  intros l g Hl. apply check_true in Hp as [_ Hp]. destruct (Hp l (Wild g) Hl) as [?|[_ E]]; [done|].
  rewrite app_length in E. simpl in E. lia.
Qed.
Print Assumptions C58_wild_card.

(** Without either, a branch runs if it is the only one that takes the alternative. *)
Theorem C58_only_branch {V W R} alts (d : V) mvd h s conv (pat : list (branch V W R)) :
  1 <= length alts <= 128 -> spec_run alts d mvd [] h = Some s ->
  exists m, e_run alts d mvd h no_objects = Ok m /\
  forall i t v w k p f r, s !! i = Some (Some (t, v)) ->
    pat !! k = Some (Typed p f) -> conv p t = Some r ->
    (forall l p' g, pat !! l = Some (Typed p' g) -> l <> k -> conv p' t = None) ->
    (forall l g, pat !! l <> Some (Wild g)) ->
    e_match alts conv pat i m w = f v w.
Proof.
  intros Ha Hs. destruct (C55_enum_match alts d mvd h s conv pat Ha Hs) as (m & Hm & H).
  exists m. split; [done|]. intros i t v w k p f r Hi Hk Hr Hu Hw.
  apply (H i t v w Hi) with (p := p). apply (select_only _ _ _ k); [done| |].
  - unfold viable. simpl. by rewrite Hr.
  - intros l [p' g|g] Hl Hlk; unfold viable; simpl; [by rewrite (Hu l p' g)|]. by destruct (Hw l g).
Qed.
Print Assumptions C58_only_branch.

(** Two branches for one alternative do not compile. *)
Theorem C58_duplicate_rejected {V W R} conv (pat : list (branch V W R)) t k l f g :
  (forall p, conv p t = Some 0 <-> p = t) -> k <> l ->
  pat !! k = Some (Typed t f) -> pat !! l = Some (Typed t g) -> select conv pat t = None.
Proof. apply select_twice. Qed.
Print Assumptions C58_duplicate_rejected.

(** The static check accepts exactly the patterns in which every branch can take some alternative,
    except that the last may be a wild card. *)
Theorem C58_pattern_check {V W R} alts conv (pat : list (branch V W R)) :
  pattern_check alts conv pat = true <->
  pat <> [] /\ forall k b, pat !! k = Some b ->
    (exists p f t r, b = Typed p f /\ t ∈ alts /\ conv p t = Some r) \/
    (exists f, b = Wild f) /\ S k = length pat.
Proof.
  rewrite check_true. split; intros [Hn H]; (split; [done|]); intros k b Hb;
    destruct (H k b Hb) as [Hr|[Hw Hk]].
  - left. by apply relevant_true.
  - right. split; [|done]. destruct b; [done|]. eauto.
  - left. by apply relevant_true.
  - right. split; [|done]. by destruct Hw as [f ->].
Qed.
Print Assumptions C58_pattern_check.

(** Types 3 and 5; 5 converts to 3 (a parameter of type 3 takes either). *)
Definition ex_conv (p t : nat) : option nat :=
  if decide (p = t) then Some 0 else if decide (p = 3 /\ t = 5) then Some 1 else None.
Definition ex_pat : list (branch nat nat nat) :=
  [Typed 3 (fun v w => Ok (v, w + 1)); Wild (fun w => Ok (0, w + 10))].
Example C58_example :
  (forall p t, ex_conv p t = Some 0 <-> p = t) /\ pattern_check ex_alts ex_conv ex_pat = true /\
  pattern_check ex_alts ex_conv (reverse ex_pat) = false /\
  pattern_check ex_alts ex_conv [Typed 9 (fun v w => Ok (v, w + 1)); Wild (fun w => Ok (0, w + 10))] = false /\
  e_match ex_alts ex_conv ex_pat 3 ex_mem 0 = Ok (30, 1) /\
  e_match ex_alts ex_conv ex_pat 1 ex_mem 0 = Ok (0, 10) /\
  e_match ex_alts ex_conv [Typed 3 (fun v w => Ok (v, w + 1))] 1 ex_mem 0 = Ok (51, 1).
Proof.
  split.
  - intros p t. unfold ex_conv. repeat case_decide; split; intros; (done || congruence).
  - split_and!; reflexivity.
Qed.

(** ** C59: Maybe *)

(** The Maybes of a type: nothing, or a value. *)
Definition a_maybe {V} (n : nat) (nv : V) (a : nat) (m : eobj V) : Prop :=
  maybe_nothing n nv a = Ok m \/ exists v, maybe_pure n a v = Ok m.

Lemma a_maybe_cases {V} n (nv : V) a m : a <> n -> a_maybe n nv a m ->
  m = EObj 0 (Some (n, nv)) \/ exists v, m = EObj 1 (Some (a, v)).
Proof.
  intros Ha [H|[v H]]; [rewrite nothing_eq in H; left; congruence|].
  rewrite pure_eq in H by done. right. exists v. congruence.
Qed.

Ltac maybe_cases H :=
  apply a_maybe_cases in H; [|assumption]; destruct H as [->|[? ->]].
Ltac maybe_go :=
  repeat (rewrite ?nothing_eq, ?pure_eq, ?from_eq by assumption; cbn [bind];
          unfold maybe_fmap, maybe_ap, maybe_ap_member, maybe_bind;
          rewrite ?has_just, ?has_not; cbn [andb];
          rewrite ?value_just by assumption; cbn [bind]); try reflexivity.

(** pure as a callable. *)
Definition pure_call {V W} (n a : nat) (v : V) (w : W) : res (eobj V * W) :=
  let* m := maybe_pure n a v in Ok (m, w).

(** The functor laws, for element types other than Nothing.  Functions may throw and have effects;
    the laws equate results and effects. *)
Theorem C59_functor_partial {V W} n (nv : V) a b c (m : eobj V) (f g : V -> W -> res (V * W)) w :
  a <> n -> b <> n -> c <> n -> a_maybe n nv a m ->
  maybe_fmap n nv a a (fun x w => Ok (x, w)) m w = Ok (m, w) /\
  (let* (m', w) := maybe_fmap n nv a b f m w in maybe_fmap n nv b c g m' w) =
  maybe_fmap n nv a c (fun x w => let* (y, w) := f x w in g y w) m w.
Proof.
  intros Ha Hb Hc Hm. maybe_cases Hm; split; maybe_go.
  destruct (f _ _) as [[y w']| | |]; cbn [bind]; maybe_go.
Qed.
Print Assumptions C59_functor_partial.

(** The applicative laws: identity, homomorphism, interchange, composition.  [app g x] calls the
    callable value [g].  Composition needs an outer function, or an inner one that returns without
    effect, since the inner one is called even if there is no outer one. *)
Theorem C59_applicative_partial {V W} n (nv : V) (app : V -> V -> W -> res (V * W)) a b c f g k k1 k2 :
  a <> n -> b <> n -> c <> n -> f <> n -> g <> n -> k <> n -> k1 <> n -> k2 <> n ->
  (forall vid m w, (forall x w, app vid x w = Ok (x, w)) -> a_maybe n nv a m ->
     (let* p := maybe_pure n f vid in maybe_ap n nv app f a a p m w) = Ok (m, w)) /\
  (forall h x w,
     (let* p := maybe_pure n f h in let* q := maybe_pure n a x in maybe_ap n nv app f a b p q w) =
     (let* (y, w) := app h x w in pure_call n b y w)) /\
  (forall u y vy w, a_maybe n nv f u -> (forall h w, app vy h w = app h y w) ->
     (let* q := maybe_pure n a y in maybe_ap n nv app f a b u q w) =
     (let* p := maybe_pure n k vy in maybe_ap n nv app k f b p u w)) /\
  (forall u v m comp comp1 comp2 w, a_maybe n nv f u -> a_maybe n nv g v -> a_maybe n nv a m ->
     (forall h w, app comp h w = Ok (comp1 h, w)) ->
     (forall h h' w, app (comp1 h) h' w = Ok (comp2 h h', w)) ->
     (forall h h' x w, app (comp2 h h') x w = let* (y, w) := app h' x w in app h y w) ->
     (exists h, maybe_pure n f h = Ok u) \/
     (forall h x, maybe_pure n g h = Ok v -> exists y, forall w, app h x w = Ok (y, w)) ->
     (let* p := maybe_pure n k comp in
      let* (q, w) := maybe_ap n nv app k f k1 p u w in
      let* (r, w) := maybe_ap n nv app k1 g k2 q v w in
      maybe_ap n nv app k2 a c r m w) =
     (let* (q, w) := maybe_ap n nv app g a b v m w in maybe_ap n nv app f b c u q w)).
Proof.
  intros Ha Hb Hc Hf Hg Hk Hk1 Hk2. split_and!.
  - intros vid m w Hid Hm. maybe_cases Hm; maybe_go. rewrite Hid. maybe_go.
  - intros h x w. maybe_go.
  - intros u y vy w Hu Hy. maybe_cases Hu; maybe_go. by rewrite Hy.
  - intros u v m comp comp1 comp2 w Hu Hv Hm H0 H1 H2 Hret.
    maybe_cases Hu; maybe_cases Hv; maybe_cases Hm; maybe_go;
      rewrite ?H0; maybe_go; rewrite ?H1; maybe_go; rewrite ?H2.
    + destruct Hret as [[h Hh]|Hret]; [rewrite pure_eq in Hh by done; congruence|].
      edestruct (Hret) as [y Hy]; [by apply pure_eq|]. rewrite Hy. maybe_go.
    + destruct (app _ _ _) as [[y w']| | |]; maybe_go.
Qed.
Print Assumptions C59_applicative_partial.

(** The monad laws (bind is also >>= and the member bind). *)
Theorem C59_monad_partial {V W} n (nv : V) a b c (m : eobj V) (f g : V -> W -> res (eobj V * W)) x w :
  a <> n -> b <> n -> c <> n -> a_maybe n nv a m ->
  (let* p := maybe_pure n a x in maybe_bind n nv a b p f w) = f x w /\
  maybe_bind n nv a a m (pure_call n a) w = Ok (m, w) /\
  (let* (p, w) := maybe_bind n nv a b m f w in maybe_bind n nv b c p g w) =
  maybe_bind n nv a c m (fun y w => let* (p, w) := f y w in maybe_bind n nv b c p g w) w.
Proof. intros Ha Hb Hc Hm. unfold pure_call. maybe_cases Hm; split_and!; maybe_go. Qed.
Print Assumptions C59_monad_partial.

(** value throws exactly when there is no value and otherwise returns it; the member ap is ap. *)
Theorem C59_value_partial {V W} n (nv : V) (app : V -> V -> W -> res (V * W)) a b f (m mf : eobj V) w :
  a <> n -> f <> n -> a_maybe n nv a m ->
  (maybe_value n a m = Throw <-> maybe_nothing n nv a = Ok m) /\
  (forall v, maybe_value n a m = Ok v <-> maybe_pure n a v = Ok m) /\
  has_value m = negb (is_nothing m) /\ (is_nothing m = true <-> maybe_nothing n nv a = Ok m) /\
  maybe_ap_member n nv app f a b m mf w = maybe_ap n nv app f a b mf m w.
Proof.
  intros Ha Hf Hm. split_and!.
  - maybe_cases Hm.
    + rewrite value_nothing by done. by rewrite nothing_eq.
    + rewrite value_just by done. rewrite nothing_eq. split; intros [=].
  - intros v. maybe_cases Hm.
    + rewrite value_nothing by done. rewrite pure_eq by done. split; intros [=].
    + rewrite value_just by done. rewrite pure_eq by done. split; intros [=]; congruence.
  - maybe_cases Hm; reflexivity.
  - rewrite nothing_eq. maybe_cases Hm; split; intros [=]; reflexivity.
  - unfold maybe_ap_member, maybe_ap. rewrite andb_comm. destruct (_ && _); reflexivity.
Qed.
Print Assumptions C59_value_partial.

(** False of the code for the element type Nothing: every Maybe<Nothing> is without a value, so
    left identity fails for every function that returns a value, and functor composition fails for
    every function through Nothing. *)
Theorem C59_maybe_of_nothing_refuted {V W} n (nv : V) a b x y (f : V -> W -> res (eobj V * W))
    (g h : V -> W -> res (V * W)) z w w' w'' :
  a <> n -> b <> n ->
  (forall m, maybe_pure n n x = Ok m -> has_value m = false) /\
  (f x w = pure_call n b y w' -> (let* p := maybe_pure n n x in maybe_bind n nv n b p f w) <> f x w) /\
  (g x w = Ok (y, w') -> h y w' = Ok (z, w'') ->
   exists m, maybe_pure n a x = Ok m /\
   (let* (m', w) := maybe_fmap n nv a n g m w in maybe_fmap n nv n b h m' w) <>
   maybe_fmap n nv a b (fun x w => let* (y, w) := g x w in h y w) m w).
Proof.
  intros Ha Hb. split_and!.
  - intros m. rewrite pure_nothing_eq. intros [= <-]. reflexivity.
  - intros ->. unfold pure_call. rewrite pure_nothing_eq, pure_eq by done. cbn [bind]. unfold maybe_bind.
    rewrite has_not, nothing_eq. cbn [bind]. congruence.
  - intros Hg Hh. rewrite pure_eq by done. eexists. split; [reflexivity|].
    assert (maybe_fmap n nv a n g (EObj 1 (Some (a, x))) w = pure_call n n y w') as ->.
    { unfold maybe_fmap. rewrite has_just, value_just by done. cbn [bind]. by rewrite Hg. }
    unfold pure_call.
    rewrite pure_nothing_eq. cbn [bind]. unfold maybe_fmap. rewrite has_not, has_just, value_just by done.
    cbn [bind]. rewrite Hg. cbn [bind]. rewrite Hh. cbn [bind]. rewrite nothing_eq, from_eq by done.
    cbn [bind]. congruence.
Qed.
Print Assumptions C59_maybe_of_nothing_refuted.

(** Values are lists: [[]] is nothing; [1 :: l] and [2 :: l] are functions that count their calls. *)
Definition ex_app (g x : list nat) (w : nat) : res (list nat * nat) :=
  match g with 1 :: l => Ok (l ++ x, S w) | 2 :: l => Throw | _ => Ok (x, w) end.
Example C59_example :
  (let* m := maybe_pure 0 4 [7] in maybe_fmap 0 [] 4 5 (fun x w => Ok (9 :: x, S w)) m 3) =
    pure_call 0 5 [9; 7] 4 /\
  (let* p := maybe_pure 0 6 [1; 8] in let* q := maybe_pure 0 4 [7] in maybe_ap 0 [] ex_app 6 4 5 p q 3) =
    pure_call 0 5 [8; 7] 4 /\
  (let* p := maybe_pure 0 6 [2; 8] in let* q := maybe_pure 0 4 [7] in maybe_ap 0 [] ex_app 6 4 5 p q 3) = Throw /\
  (let* p := maybe_nothing 0 [] 6 in let* q := maybe_pure 0 4 [7] in maybe_ap 0 [] ex_app 6 4 5 p q 3) =
    (let* m := maybe_nothing 0 [] 5 in Ok (m, 3)).
Proof. split_and!; reflexivity. Qed.

(** ** C60: Tuple *)

(** get, match and equality; components are of types whose != is the negation of their ==. *)
Theorem C60_tuple {V} (xs : list V) :
  (forall i, tuple_get (tuple_of xs) i = match xs !! i with Some x => Ok x | None => UB OutOfBounds end) /\
  (forall i v, i < length xs -> tuple_set (tuple_of xs) i v = tuple_of (<[i := v]> xs)) /\
  (forall R (f : list V -> res R), tuple_match f (tuple_of xs) = f xs) /\
  (forall ys eqb neqb, (forall i x y, neqb i x y = negb (eqb i x y)) -> length xs = length ys ->
     exists b, tuple_eq eqb neqb (tuple_of xs) (tuple_of ys) = Ok b /\
       tuple_neq eqb neqb (tuple_of xs) (tuple_of ys) = Ok (negb b) /\
       (b = true <-> forall i x y, xs !! i = Some x -> ys !! i = Some y -> eqb i x y = true)).
Proof.
  split_and!.
  - apply tuple_get_ok.
  - apply tuple_set_ok.
  - intros R f. apply tuple_match_ok.
  - intros ys eqb neqb Hn Hl. unfold tuple_neq, tuple_eq. rewrite tuple_of_length.
    destruct (tuple_compare_ok eqb neqb xs ys (length xs) Hn Hl (le_n _)) as (b & -> & Hb).
    exists b. split; [done|]. split; [done|]. rewrite Hb. split; intros H i x y.
    + intros Hx Hy. apply (H i); [by eapply lookup_lt_Some|done|done].
    + intros _. apply H.
Qed.
Print Assumptions C60_tuple.

Example C60_example : tuple_get (tuple_of [5; 6; 7]) 2 = Ok 7 /\
  tuple_match (fun l => Ok (rev l)) (tuple_of [5; 6; 7]) = Ok [7; 6; 5] /\
  tuple_eq (fun _ => Nat.eqb) (fun _ x y => negb (Nat.eqb x y)) (tuple_of [5; 6; 7]) (tuple_of [4; 6; 7]) = Ok false /\
  tuple_eq (fun _ => Nat.eqb) (fun _ x y => negb (Nat.eqb x y)) (tuple_of [5; 6; 7]) (tuple_of [5; 6; 7]) = Ok true.
Proof. split_and!; reflexivity. Qed.

(** ** C93: copies that throw *)

(** A constructor whose copy throws makes no object and changes nothing else. *)
Theorem C93_construction_throws_partial {V} alts (d : V) mvd h s throws :
  1 <= length alts <= 128 -> spec_run alts d mvd [] h = Some s ->
  exists m, e_run alts d mvd h no_objects = Ok m /\
  (forall j t v, s !! j = Some (Some (t, v)) -> throws t v = true ->
     e_copy alts throws j m = Ok (None, EMem (e_objs m ++ [None]) (e_ctors m) (e_dtors m))) /\
  (forall t v, t ∈ alts -> throws t v = true ->
     e_from alts throws false t v m = Ok (None, EMem (e_objs m ++ [None]) (e_ctors m) (e_dtors m))).
Proof.
  intros Ha Hs. destruct (history_ok alts d mvd Ha h s Hs) as (m & Hm & Hr). exists m. split_and!; [done| |].
  - intros j t v Hj Ht. by eapply copy_throws.
  - intros t v Ht Hth. by apply from_throws.
Qed.
Print Assumptions C93_construction_throws_partial.

(** False of the code for assignment: the old value is destroyed before the copy.  Whenever the
    copy throws, the target is left without a value but with an index, and both its destruction
    and a read of the alternative it claims to hold are undefined. *)
Theorem C93_assignment_throws_refuted {V} alts (d : V) mvd h s throws :
  1 <= length alts <= 128 -> spec_run alts d mvd [] h = Some s ->
  exists m, e_run alts d mvd h no_objects = Ok m /\
  forall i j x t v, i <> j -> s !! i = Some (Some x) -> s !! j = Some (Some (t, v)) -> throws t v = true ->
    exists m', e_assign alts mvd throws quiet false i j m = Ok (m', true) /\
      e_destroy alts quiet i m' = UB DeadObject /\ e_get alts t i m' = UB DeadObject.
Proof.
  intros Ha Hs. destruct (history_ok alts d mvd Ha h s Hs) as (m & Hm & Hr). exists m. split; [done|].
  intros i j [t1 v1] t v Hij Hi Hj Ht. assert (t ∈ alts) by (by eapply (rep_alts _ _ _ Hr), held_lookup).
  assert (i < length (e_objs m)).
  { rewrite (rep_objs _ _ _ Hr), repr_length. by eapply lookup_lt_Some. }
  eexists. split; [by eapply assign_throws|]. split; [by apply empty_destroy|by apply empty_get].
Qed.
Print Assumptions C93_assignment_throws_refuted.

Example C93_example : spec_run [7; 3] 70 (fun _ v => v) [] [NewDefault; NewFrom true 3 30] =
  Some [Some (7, 70); Some (3, 30)] /\ (fun t (v : nat) => Nat.eqb t 3) 3 30 = true.
Proof. split; reflexivity. Qed.

(** ** C94: assignment from an object inside the old value *)

(** False of the code: if destroying the old value ends the life of the right-hand side (a node of
    a list owned by the left-hand side, as in list = list.tail), the assignment reads a dead
    object. *)
Theorem C94_assign_from_own_part_refuted {V} alts (d : V) mvd h s throws dtor by_move :
  1 <= length alts <= 128 -> spec_run alts d mvd [] h = Some s ->
  exists m, e_run alts d mvd h no_objects = Ok m /\
  forall i j t v, i <> j -> s !! i = Some (Some (t, v)) ->
    (forall m, e_at (dtor t v m) j = UB UseAfterFree) ->
    e_assign alts mvd throws dtor by_move i j m = UB UseAfterFree.
Proof.
  intros Ha Hs. destruct (history_ok alts d mvd Ha h s Hs) as (m & Hm & Hr). exists m. split; [done|].
  intros i j t v Hij Hi Hd. by eapply assign_owned.
Qed.
Print Assumptions C94_assign_from_own_part_refuted.

(** Object 1 is owned by the value of object 0. *)
Definition ex_owner_dtor (t v : nat) (m : emem nat) : emem nat :=
  if decide (v = 70) then EMem (<[1 := None]> (e_objs m)) (e_ctors m) (e_dtors m) else m.
Example C94_example : spec_run [7; 3] 70 (fun _ v => v) [] [NewDefault; NewFrom true 3 30] =
  Some [Some (7, 70); Some (3, 30)] /\ forall m, e_at (ex_owner_dtor 7 70 m) 1 = UB UseAfterFree.
Proof.
  split; [reflexivity|]. intros [[|x [|y l]] c e]; reflexivity.
Qed.
