(** What the verdict of a source may depend on (C34), and trees without their excluded statements (C41). *)
From Verif Require Import PyBase Config AstKinds Ast State Spec_Visitor.

(** The configurations agree on what is analysed: everything else is about printing, files and processes. *)
Definition same_analysis (c c' : config) : Prop :=
  (forall x, In x (c_exclusions_set c) <-> In x (c_exclusions_set c')) /\
  (forall x, In x (c_features c) <-> In x (c_features c')) /\
  c_backports c = c_backports c' /\
  c_eval_annotations c = c_eval_annotations c' /\
  c_ignore_incomp c = c_ignore_incomp c'.

(** Statements and clauses that a comment on their first line excludes. *)
Definition excludable : list kind :=
  [KImport; KImportFrom; KAssign; KAugAssign; KAnnAssign; KFunctionDef; KAsyncFunctionDef; KClassDef; KNonlocal; KRaise;
   KTypeAlias; KWith; KAsyncWith; KFor; KAsyncFor; KWhile; KIf; KTry; KMatch; KExceptHandler].
(** Expressions with the same property. *)
Definition excludable_expr : list kind :=
  [KCall; KAwait; KNamedExpr; KYield; KYieldFrom; KSubscript; KIfExp; KBoolOp].

Definition excluded (nl : list Z) (kinds : list kind) (v : pyval) : Prop :=
  exists k, In k kinds /\ isa k v /\ In (lineno v) nl.
(** A statement that is only such an expression, such as a call. *)
Definition excluded_stmt (nl : list Z) (v : pyval) : Prop :=
  excluded nl excludable v \/ (isa KExpr v /\ exists x, fields v = [("value", x)] /\ excluded nl excludable_expr x).

(** The nodes that hold statements, and where. *)
Definition holders : list kind :=
  [KModule; KInteractive; KFunctionDef; KAsyncFunctionDef; KClassDef; KFor; KAsyncFor; KWhile; KIf; KWith; KAsyncWith; KTry;
   KTryStar; KExceptHandler; KMatch; Kmatch_case].
Definition blocks : list string := ["body"; "orelse"; "finalbody"; "handlers"; "cases"].

(** [erased nl v v']: [v'] is [v] without some of its excluded statements, at any depth. Those that stand
    directly in the body of a class are kept. *)
Inductive erased (nl : list Z) : pyval -> pyval -> Prop :=
| er_same v : erased nl v v
| er_node k u p fs fs' : In k holders -> erased_fields nl (kind_eqb k KClassDef) fs fs' ->
    erased nl (VNode k u p fs) (VNode k u p fs')
with erased_fields (nl : list Z) : bool -> list (string * pyval) -> list (string * pyval) -> Prop :=
| ef_nil b : erased_fields nl b [] []
| ef_same b f x fs fs' : erased_fields nl b fs fs' -> erased_fields nl b ((f, x) :: fs) ((f, x) :: fs')
| ef_block b f l l' fs fs' : In f blocks -> erased_block nl b l l' -> erased_fields nl b fs fs' ->
    erased_fields nl b ((f, VList l) :: fs) ((f, VList l') :: fs')
with erased_block (nl : list Z) : bool -> list pyval -> list pyval -> Prop :=
| eb_nil b : erased_block nl b [] []
| eb_keep b x x' l l' : erased nl x x' -> erased_block nl b l l' -> erased_block nl b (x :: l) (x' :: l')
| eb_drop x l l' : excluded_stmt nl x -> erased_block nl false l l' -> erased_block nl false (x :: l) l'.

(** They also read files the same way. *)
Definition same_reading (c c' : config) : Prop :=
  same_analysis c c' /\ c_parse_comments c = c_parse_comments c' /\ c_pessimistic c = c_pessimistic c'.
