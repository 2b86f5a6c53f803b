(** The check of a format string against the types of its arguments, when it is compiled (fmt/core.h). Line numbers
    without a file are of core.h.
    It runs if the compiler has consteval, or the string is an EFP_FMT_STRING, and not if an argument is named at run
    time (arg; basic_format_string, 3076-3100): names are those of the literal _a. do_check_arg_id and check_dynamic_spec
    (1162-1178) do nothing in GCC before 12: not modelled. An error of the check is an error of the compilation: [Throw]. *)
From Verif Require Import Base.Cpp Base.Mem Model.Numeric Model.Format.
Local Open Scope Z_scope.

(** The types of arguments: those of [scalar], a join of one of them, or one of the sequences of format.hpp. *)
Inductive ctype : Type := CtScalar (t : ty) | CtJoin (t : ty) | CtSeq.
Record param : Type := Param { p_name : option (list Z); p_type : ctype }.

(** is_integral_type, 638-640: up to char. *)
Definition is_integral_type (t : ctype) : bool :=
  match t with CtScalar (TSInt | TUInt | TBool | TChar) => true | _ => false end.

Section check.
  Context (ps : list param) (s : list Z).
  Definition num_args : Z := Z.of_nat (length ps).

  (** get_arg_index_by_name, 2903-2925. *)
  Definition get_arg_index_by_name (name : list Z) : Z :=
    match list_find (fun p => p_name p = Some name) ps with Some (i, _) => Z.of_nat i | None => -1 end.
  (** format_string_checker::on_arg_id, 2951-2970; compile_parse_context, 790-806. *)
  Definition check_on_arg_id (id : arg_id) (next : Z) : res (Z * Z) :=
    match id with
    | Auto => let* (id, next) := next_arg_id next in if decide (id >= num_args) then Throw else Ok (id, next)
    | Index id => let* next := check_arg_id next in if decide (id >= num_args) then Throw else Ok (id, next)
    | Name n => let index := get_arg_index_by_name n in if decide (index < 0) then Throw else Ok (index, next)
    end.

  (** dynamic_spec_id_handler, 2507-2530, with do_check_arg_id, 1162-1170, and check_dynamic_spec, 808-814. Here they are
      called for the width and the precision once the specs are parsed, not as soon as they are: an error comes either way. *)
  Definition check_dynamic_spec (r : ref) : res unit :=
    match r with
    | RNone | RName _ => Ok tt
    | RIndex id =>
        if decide (id >= num_args) then Throw
        else let* p := get ps (Z.to_nat id) in if is_integral_type (p_type p) then Ok tt else Throw
    end.
  (** formatter::parse, 3043-3050, of join_view, format.h:4627-4630, and of the sequences, format.hpp:55-120. *)
  Definition check_parse (t : ctype) (begin : nat) (next : Z) : res (nat * Z) :=
    match t with
    | CtSeq => Ok (begin, next)
    | CtScalar t | CtJoin t =>
        let* (begin, sp, next) := parse_format_specs s begin t next in
        let* _ := check_dynamic_spec (width_ref sp) in
        let* _ := check_dynamic_spec (precision_ref sp) in
        let* _ := match t with TChar => check_char_specs sp | _ => Ok true end in
        Ok (begin, next)
    end.
  (** on_format_specs and on_replacement_field, 2972-2980. *)
  Definition check_on_format_specs (id : Z) (begin : nat) (next : Z) (out : list Z) : res (nat * Z * list Z) :=
    if decide (0 <= id < num_args) then
      let* p := get ps (Z.to_nat id) in
      let* (begin, next) := check_parse (p_type p) begin next in
      Ok (begin, next, out)
    else Ok (begin, next, out).
  Definition check_on_replacement_field (id : Z) (begin : nat) (next : Z) (out : list Z) : res (list Z) :=
    let* _ := check_on_format_specs id begin next out in Ok out.

  (** basic_format_string, 3081-3098, and check_format_string, 3000-3007. The text is not looked at: what is written here
      is dropped. *)
  Definition check_field : nat -> Z -> list Z -> res (nat * Z * list Z) :=
    replacement_field s check_on_arg_id check_on_replacement_field check_on_format_specs.
  Definition check_format_string : res unit := let* _ := scan_string s check_field [] in Ok tt.
End check.
