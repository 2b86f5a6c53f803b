(** What a format string must be for the types of its arguments. Independent of the model. *)
From Coq Require Import ZArith List Lia.
From stdpp Require Import prelude.
From Verif Require Import Spec.FormatSpec Spec.FieldSpec Spec.TemplateSpec.
Local Open Scope Z_scope.

(** The types of arguments, and the names some of them have. *)
Inductive value_type : Type := TOne (k : kind) | TSequence | TJoined (k : kind).
Definition type_of_value (v : value) : value_type :=
  match v with One v => TOne (kind_of v) | Sequence _ _ => TSequence | Joined k _ _ => TJoined k end.
Record signature : Type := Signature { s_types : list value_type; s_names : list (list Z * Z) }.
Definition has_signature (A : arguments) (S : signature) : Prop :=
  type_of_value <$> a_values A = s_types S /\ a_names A = s_names S.

(** The type of the argument that is asked for. The first of equal names counts. *)
Inductive finds_type (S : signature) : which -> value_type -> Prop :=
| finds_type_at i t : 0 <= i -> s_types S !! Z.to_nat i = Some t -> finds_type S (ArgAt i) t
| finds_type_named n k i t : s_names S !! k = Some (n, i) -> (forall k' i', (k' < k)%nat -> s_names S !! k' <> Some (n, i')) ->
    finds_type S (ArgAt i) t -> finds_type S (Named n) t.

Section checks.
  Context (S : signature).
  (** A width or a precision by the index of an argument is that of an integer, a bool or a char. By a name, it is anything. *)
  Definition counting (t : value_type) : Prop := t = TOne KInt \/ t = TOne KUnsigned \/ t = TOne KBool \/ t = TOne KChar.
  Definition count_checks (c : count) : Prop :=
    match c with
    | NoCount | Number _ | Bare | OfArg (Named _) => True
    | OfArg w => exists t, finds_type S w t /\ counting t
    end.
  Definition type_checks (t : value_type) (fo : option field) : Prop :=
    match fo with
    | None => True
    | Some f =>
        match t with
        | TOne k | TJoined k => admits k f /\ count_checks (f_width f) /\ count_checks (f_precision f)
        | TSequence => f = no_options
        end
    end.
  Definition item_checks (i : item) : Prop :=
    match i with Text _ => True | Show w fo => exists t, finds_type S w t /\ type_checks t fo end.
  Definition checks (ts : list item) : Prop := one_way ts /\ Forall item_checks (index 0 ts).
End checks.
