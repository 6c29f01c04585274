(** The nodes at which an analysis can end with an exception (C44). *)
From Verif Require Import PyBase Config Ast AstKinds State Spec_Visitor.

(** A call of strftime or strptime given a literal that is not a text. *)
Definition bad_format (n : pyval) : Prop :=
  isa KCall n /\ isa KAttribute (attr "func" n) /\
  In (as_str (attr "attr" (attr "func" n))) ["strftime"; "strptime"] /\
  exists a c, In a (items "args" n) /\ constant c a /\ forall t, c <> VStr t.

(** A function without a return annotation, with a complex number in the annotation of an argument. *)
Definition bad_annotation (n : pyval) : Prop :=
  function_def n /\ attr "returns" n = VNone /\
  exists a m t, In a (items "args" (attr "args" n)) /\ below m (attr "annotation" a) /\ constant (VComplex t) m.

Inductive crashes (e : env) (n : pyval) : exn -> Prop :=
| cr_format : bad_format n -> counted e n -> crashes e n TypeError
| cr_annotation : bad_annotation n -> counted e n -> crashes e n IndexError
| cr_self_doc man x : isa KJoinedStr n -> In "fstring-self-doc" (c_features (e_cfg e)) -> e_selfdoc e man n = Err x ->
    crashes e n x.

(** No targets, and only violations are to be shown. *)
Definition no_targets (e : env) : Prop :=
  c_only_show_violations (e_cfg e) = true /\ c_targets (e_cfg e) = [].
