(** Statements that need nothing of a Python version, and sources that differ in such statements only (C85). *)
From Verif Require Import PyBase Config AstKinds Ast State Parser Processor Fstring Spec_Base Spec_Visitor Spec_Seen Spec_Same Spec_Layout.

(** Texts, numbers and [None]. Bytes, [True], [False] and [...] have requirements of their own. *)
Definition idle_value (x : pyval) : Prop :=
  match x with VNone | VInt _ | VFloat _ | VComplex _ | VStr _ => True | _ => False end.
(** What such a statement may be made of. *)
Definition idle_statements : list kind := [KPass; KBreak; KExpr; KReturn; KAssert; KGlobal; KIf; KWhile; KTry].
Definition idle_expressions : list kind :=
  [KTuple; KList; KLoad; KIfExp; KBoolOp; KAnd; KOr; KUnaryOp; KUSub; KUAdd; KInvert; KNot; KCompare; KEq; KNotEq; KLt; KLtE; KGt; KGtE; KIs; KIsNot; KIn; KNotIn].
Definition idle_node (n : pyval) : Prop :=
  (exists k, In k (idle_statements ++ idle_expressions) /\ isa k n) \/
  (isa KConstant n /\ idle_value (attr "value" n) /\ plain_constant n).
(** A docstring, [pass], [break], a number, [assert 1 < 2], [global x], [if 0: pass] and the like. *)
Definition idle (v : pyval) : Prop :=
  (exists k, In k idle_statements /\ isa k v) /\ forall n, below n v -> idle_node n.

(** [padded v v']: [v] and [v'] are the same but for idle statements, in any block at any depth. *)
Inductive padded : pyval -> pyval -> Prop :=
| pd_same v : padded v v
| pd_node k u p fs fs' : In k holders -> padded_fields fs fs' -> padded (VNode k u p fs) (VNode k u p fs')
with padded_fields : list (string * pyval) -> list (string * pyval) -> Prop :=
| pf_nil : padded_fields [] []
| pf_same f x fs fs' : padded_fields fs fs' -> padded_fields ((f, x) :: fs) ((f, x) :: fs')
| pf_block f l l' fs fs' : In f blocks -> padded_block l l' -> padded_fields fs fs' ->
    padded_fields ((f, VList l) :: fs) ((f, VList l') :: fs')
with padded_block : list pyval -> list pyval -> Prop :=
| pb_nil : padded_block [] []
| pb_keep x x' l l' : padded x x' -> padded_block l l' -> padded_block (x :: l) (x' :: l')
| pb_less x l l' : idle x -> padded_block l l' -> padded_block (x :: l) l'
| pb_more x l l' : idle x -> padded_block l l' -> padded_block l (x :: l').

(** Two files: the trees differ as [rel] says, and the rest may have moved because of that; comments exclude the same
    parts, and are used in both files or in neither (which is part of the result of a run). *)
Definition lines_of_tokens (c : config) (toks : list token) : list Z := if c_parse_comments c then comments toks else [].
Inductive changed_file (rel : pyval -> pyval -> Prop) (c : config) (path : string) (d : pyval -> string) : fcontent -> fcontent -> Prop :=
| chf_same x : changed_file rel c path d x x
| chf_changed src src' v v' toks toks' f : rel v v' ->
    relaid (mkEnv c path (Some src) (lines_of_tokens c toks) selfdoc d) (mkEnv c path (Some src') (lines_of_tokens c toks') selfdoc d) f v' ->
    (lines_of_tokens c toks = [] <-> lines_of_tokens c toks' = []) ->
    changed_file rel c path d (FcSource src (PTree v (inr toks))) (FcSource src' (PTree (relay f v') (inr toks'))).
