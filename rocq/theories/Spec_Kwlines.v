(** Specification for the lines of keyword arguments (C64). *)
From Verif Require Import PyBase Utility RulesData Rules Config Formats AstKinds Ast State Spec_Base Spec_Visitor Spec_Places.

(** [n] is a keyword argument of the call, or of the class definition, [c]. *)
Definition argument_of (c n : pyval) : Prop :=
  isa Kkeyword n /\ (isa KCall c \/ isa KClassDef c) /\ In n (items "keywords" c).

(** Keyword arguments stand where Python's grammar has them. *)
Definition arguments_in_calls (v : pyval) : Prop :=
  ~ isa Kkeyword v /\
  forall c f x n, below c v -> In (f, x) (fields c) -> x = n \/ In n (as_list x) -> isa Kkeyword n -> argument_of c n.

(** [l] is a line of the call, or the class definition, or of something in it. *)
Definition within (c : pyval) (l : Z) : Prop := exists m col, below m c /\ pos_of m = Some (l, col).

(** The source has a keyword argument [k] in something that has a part at line [l]. *)
Definition hosted (v : pyval) (k : string) (l : Z) : Prop :=
  exists c n, below c v /\ argument_of c n /\ as_ostr (attr "arg" n) = Some k /\ within c l.

(** The line says of the keyword argument [k] of [f] what versions it needs, at a line of a call that has it. *)
Definition said_in_call (e : env) (v : pyval) (f k : string) (r : mins) (line : string) : Prop :=
  exists z c, line = format_output_line (e_cfg e) ("'" +++ f +++ "(" +++ k +++ ")'") (e_path e) (Some z) c (Some r) None /\
    hosted v k z.
