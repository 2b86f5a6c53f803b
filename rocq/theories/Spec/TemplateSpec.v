(** Format strings: text and fields. Independent of the model. *)
From Coq Require Import ZArith List Lia.
From stdpp Require Import prelude.
From Verif Require Import Spec.FormatSpec Spec.FieldSpec Spec.FloatField.
Local Open Scope Z_scope.

(** A char of text, or a field: the argument it shows, and how, if it says. *)
Inductive item : Type := Text (c : Z) | Show (w : which) (f : option field).

(** How a format string is written: a brace of the text is doubled. *)
Inductive template_text : list item -> list Z -> Prop :=
| template_nil : template_text [] []
| template_char c ts s : c <> 123 -> c <> 125 -> template_text ts s -> template_text (Text c :: ts) (c :: s)
| template_brace c ts s : c = 123 \/ c = 125 -> template_text ts s -> template_text (Text c :: ts) (c :: c :: s)
| template_show w i ts s : which_ok w -> which_text w i -> template_text ts s ->
    template_text (Show w None :: ts) ([123] ++ i ++ [125] ++ s)
| template_field w i f t ts s : which_ok w -> which_text w i -> field_ok f -> field_text f t -> template_text ts s ->
    template_text (Show w (Some f) :: ts) ([123] ++ i ++ [58] ++ t ++ [125] ++ s).

(** ** The arguments a format string asks for, in the order it does *)

Definition asked_by_count (c : count) : list which := match c with OfArg w => [w] | _ => [] end.
Definition asked_by (i : item) : list which :=
  match i with
  | Text _ => []
  | Show w None => [w]
  | Show w (Some f) => w :: asked_by_count (f_width f) ++ asked_by_count (f_precision f)
  end.
Definition asked (ts : list item) : list which := concat (map asked_by ts).
(** Either none by its index, or none by the order. *)
Definition one_way (ts : list item) : Prop :=
  Forall (fun w => forall i, w <> ArgAt i) (asked ts) \/ Forall (fun w => w <> NextArg) (asked ts).

(** ** The same, with the indexes of the arguments that are asked for by order: from [n] on *)

Definition index_which (n : Z) (w : which) : which * Z := match w with NextArg => (ArgAt n, n + 1) | _ => (w, n) end.
Definition index_count (n : Z) (c : count) : count * Z :=
  match c with OfArg w => let '(w, n) := index_which n w in (OfArg w, n) | _ => (c, n) end.
Definition index_field (n : Z) (f : field) : field * Z :=
  let '(w, n) := index_count n (f_width f) in
  let '(p, n) := index_count n (f_precision f) in
  (Field (f_fill f) (f_align f) (f_sign f) (f_alternate f) (f_zero f) w p (f_local f) (f_type f), n).
Definition index_item (n : Z) (i : item) : item * Z :=
  match i with
  | Text c => (Text c, n)
  | Show w None => let '(w, n) := index_which n w in (Show w None, n)
  | Show w (Some f) => let '(w, n) := index_which n w in let '(f, n) := index_field n f in (Show w (Some f), n)
  end.
Fixpoint index (n : Z) (ts : list item) : list item :=
  match ts with [] => [] | i :: ts => let '(i, n) := index_item n i in i :: index n ts end.

(** ** Values and arguments *)

Inductive one : Type := OInt (signed : bool) (z : Z) | OBool (b : bool) | OChar (c : Z) | OString (s : list Z)
| OFloat (double : bool) (bits : Z) | OCstring (addr : Z) (s : list Z) | OPointer (addr : Z).
Definition kind_of (v : one) : kind :=
  match v with
  | OInt true _ => KInt | OInt false _ => KUnsigned | OBool _ => KBool | OChar _ => KChar | OString _ => KString | OFloat _ _ => KFloat
  | OCstring _ _ => KCstring | OPointer _ => KPointer
  end.
(** One value; a sequence of values of a kind; the values of a sequence with a separator, from join. *)
Inductive value : Type := One (v : one) | Sequence (k : kind) (vs : list one) | Joined (k : kind) (vs : list one) (sep : list Z).
(** The arguments, and names for some of them. *)
Record arguments : Type := Given { a_values : list value; a_names : list (list Z * Z) }.

(** The argument that is asked for. The first of equal names counts. *)
Inductive finds (A : arguments) : which -> value -> Prop :=
| finds_at i v : 0 <= i -> a_values A !! Z.to_nat i = Some v -> finds A (ArgAt i) v
| finds_named n k i v : a_names A !! k = Some (n, i) -> (forall k' i', (k' < k)%nat -> a_names A !! k' <> Some (n, i')) ->
    finds A (ArgAt i) v -> finds A (Named n) v.
(** The width or precision asked for, if one is. An argument must be an integer, and one of int. *)
Inductive counts (A : arguments) : count -> option Z -> Prop :=
| counts_none : counts A NoCount None
| counts_bare : counts A Bare None
| counts_number n : counts A (Number n) (Some n)
| counts_arg w sg z : finds A w (One (OInt sg z)) -> 0 <= z <= int_max -> counts A (OfArg w) (Some z).

(** ** The text of a value *)

Definition no_options : field := Field [] None None false false NoCount NoCount false None.
(** The text without a field; [float_plain] is that of floating-point numbers. *)
Definition plain_shows (float_plain : bool -> Z -> list Z -> Prop) (v : one) (text : list Z) : Prop :=
  match v with
  | OInt _ z => decimal z text
  | OBool b => text = if b then [116; 114; 117; 101] else [102; 97; 108; 115; 101]
  | OChar c => text = [c]
  | OString s => text = s
  | OFloat d b => float_plain d b text
  | OCstring _ s => text = s
  | OPointer a => exists digits, numeral 16 false a digits /\ text = [48; 120] ++ digits
  end.
(** [texts] with [sep] between them. *)
Definition separated (sep : list Z) (texts : list (list Z)) : list Z :=
  match texts with [] => [] | t :: texts => t ++ concat (map (app sep) texts) end.

Section shows.
  (** The locale, the columns of a text, the debug texts of chars and strings, and the texts of floating-point numbers
      without a field and in a field, with a width and a precision. *)
  Context (L : locale) (cols : list Z -> Z -> Prop) (debug_char : Z -> list Z -> Prop) (debug_string : list Z -> list Z -> Prop).
  Context (float_plain : bool -> Z -> list Z -> Prop) (float_text : field -> Z -> option Z -> bool -> Z -> list Z -> Prop).
  Context (A : arguments).

  Definition one_shows (f : field) (w : Z) (p : option Z) (v : one) (text : list Z) : Prop :=
    match v with
    | OInt _ z => int_shows L f w z text
    | OBool b => bool_shows L f w b text
    | OChar c => exists d, debug_char c d /\ char_value_shows L d f w c text
    | OString s => exists d, debug_string s d /\ string_shows cols d f w p s text
    | OFloat d b => float_text f w p d b text
    | OCstring a s => exists d, debug_string s d /\ cstring_shows cols d f w p a s text
    | OPointer a => pointer_shows f w a text
    end.
  Inductive value_shows : value -> option field -> list Z -> Prop :=
  | shows_plain v text : plain_shows float_plain v text -> value_shows (One v) None text
  | shows_field v f w p text : counts A (f_width f) w -> counts A (f_precision f) p ->
      one_shows f (default 0 w) p v text -> value_shows (One v) (Some f) text
  | shows_sequence k vs fo texts : Forall2 (plain_shows float_plain) vs texts ->
      value_shows (Sequence k vs) fo ([91] ++ separated [44; 32] texts ++ [93])
  | shows_joined k vs sep texts : Forall2 (plain_shows float_plain) vs texts -> value_shows (Joined k vs sep) None (separated sep texts)
  | shows_joined_field k vs sep f texts :
      Forall2 (fun v text => exists w p, counts A (f_width f) w /\ counts A (f_precision f) p /\ one_shows f (default 0 w) p v text) vs texts ->
      value_shows (Joined k vs sep) (Some f) (separated sep texts).
  Inductive item_shows : item -> list Z -> Prop :=
  | shows_text c : item_shows (Text c) [c]
  | shows_arg w fo v text : finds A w v -> value_shows v fo text -> item_shows (Show w fo) text.

  (** Whether the arguments are what an item asks for: there is one, of a kind that admits the field, and
      its width and precision are there, and a precision that it can have. A sequence admits no options. A null C string
      has no text, only an address. *)
  Definition plain_fits (v : one) : Prop := match v with OCstring a _ => a <> 0 | _ => True end.
  Definition counts_ok (f : field) : Prop := (exists w, counts A (f_width f) w) /\ (exists p, counts A (f_precision f) p).
  Definition one_fits (f : field) (v : one) : Prop :=
    match v with
    | OFloat d b => forall p, counts A (f_precision f) p -> float_fits f p d b
    | OCstring a _ => a = 0 -> f_type f = Some AsPointer
    | _ => True
    end.
  Definition value_fits (v : value) (fo : option field) : Prop :=
    match fo with
    | None => match v with One v => plain_fits v | Sequence _ vs | Joined _ vs _ => Forall plain_fits vs end
    | Some f =>
        match v with
        | One v => admits (kind_of v) f /\ counts_ok f /\ one_fits f v
        | Sequence _ vs => f = no_options /\ Forall plain_fits vs
        | Joined k vs _ => admits k f /\ (vs <> [] -> counts_ok f) /\ Forall (one_fits f) vs
        end
    end.
  Definition item_fits (i : item) : Prop :=
    match i with Text _ => True | Show w fo => exists v, finds A w v /\ value_fits v fo end.
End shows.
