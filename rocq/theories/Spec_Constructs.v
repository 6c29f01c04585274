(** Settings for constructs that a source does not have (C88). *)
From Verif Require Import PyBase RulesData Config AstKinds Ast State Spec_Base Spec_Visitor.

(** [X | Y] and [X |= Y]. *)
Definition bars (n : pyval) : Prop := (isa KBinOp n \/ isa KAugAssign n) /\ isa KBitOr (attr "op" n).

(** Annotations of variables, of arguments, and of what functions return. *)
Definition annotated (n : pyval) : Prop :=
  isa KAnnAssign n \/ ((isa KFunctionDef n \/ isa KAsyncFunctionDef n) /\ attr "returns" n <> VNone) \/ attr "annotation" n <> VNone.

(** Names that may stand for a type that can be subscripted from Python 3.9 on: those of the types themselves, names from
    imports of them, and names that are given one. *)
Inductive generic_name (v : pyval) (k : string) : Prop :=
| gn_type : In k builtin_generic_annotation_types -> generic_name v k
| gn_import n a m : below n v -> isa KImportFrom n -> attr "module" n = VStr m -> In a (as_list (attr "names" n)) ->
    as_str (attr "name" a) = k -> In (m +++ "." +++ k) builtin_generic_annotation_types -> generic_name v k
| gn_given n x t : below n v -> isa KName (attr "value" n) -> as_str (attr "id" (attr "value" n)) = t -> In t builtin_generic_annotation_types ->
    (x = attr "target" n \/ In x (as_list (attr "targets" n))) -> isa KName x -> as_str (attr "id" x) = k -> generic_name v k.
(** [k[..]], or [e.a[..]] if [k] ends in [a]. *)
Definition subscripted (n : pyval) (k : string) : Prop :=
  isa KSubscript n /\
  ((isa KName (attr "value" n) /\ as_str (attr "id" (attr "value" n)) = k) \/
   (isa KAttribute (attr "value" n) /\ exists p, k = p +++ as_str (attr "attr" (attr "value" n)))).

(** Only the features that are enabled, and whether annotations are evaluated, differ; and a difference is for what is not
    in the source. *)
Record for_absent (v : pyval) (c c' : config) : Prop := {
  fa_fstrings : has_feature c' "fstring-self-doc" = has_feature c "fstring-self-doc" \/ forall n, below n v -> ~ isa KJoinedStr n;
  fa_unions : has_feature c' "union-types" = has_feature c "union-types" \/ forall n, below n v -> ~ bars n;
  fa_annotations : c_eval_annotations c' = c_eval_annotations c \/
    (forall n, below n v -> ~ annotated n) /\ (forall n k, below n v -> subscripted n k -> ~ generic_name v k)
}.
Definition same_but_constructs (c c' : config) : Prop := c' = w_features (c_features c') (w_eval_annotations (c_eval_annotations c') c).
