(** Sources that differ in what their annotations say only (C86). *)
From Verif Require Import PyBase Config AstKinds Ast State Spec_Base Spec_Visitor Spec_Seen Spec_Same Spec_Layout Spec_Idle.

(** The same fields, with another value in one of them. *)
Definition with_field (f : string) (x : pyval) (fs : list (string * pyval)) : list (string * pyval) :=
  map (fun gy => if String.eqb (fst gy) f then (fst gy, x) else gy) fs.

(** Where annotations stand: those of variables, of arguments and of what functions return. *)
Definition annotation_field (k : kind) (f : string) : bool :=
  match k with
  | KAnnAssign | Karg => String.eqb f "annotation"
  | KFunctionDef | KAsyncFunctionDef => String.eqb f "returns"
  | _ => false
  end.
(** A tree in which all annotations are the same. *)
Fixpoint blank (v : pyval) : pyval :=
  match v with
  | VNode k u p fs =>
      VNode k u p (map (fun fx => (fst fx, if annotation_field k (fst fx) && negb (is_none (snd fx)) then VStr "" else blank (snd fx))) fs)
  | VList l => VList (map blank l)
  | _ => v
  end.

(** [Final] and [Literal], alone or with an argument. They ask for 3.8 by themselves. *)
Definition names_type (n : string) (a : pyval) : Prop :=
  (isa KName a /\ attr "id" a = VStr n) \/
  (isa KSubscript a /\ isa KName (attr "value" a) /\ attr "id" (attr "value" a) = VStr n).
Definition same_special (a a' : pyval) : Prop :=
  (names_type "Final" a <-> names_type "Final" a') /\ (names_type "Literal" a <-> names_type "Literal" a').

(** [reannotated b v v']: other annotations of variables and other return annotations, in any block at any depth, but not
    of what stands directly in a class; [b] tells whether [v] does. *)
Inductive reannotated : bool -> pyval -> pyval -> Prop :=
| ra_same b v : reannotated b v v
| ra_then b v w x : reannotated b v w -> reannotated b w x -> reannotated b v x
| ra_variable u p fs a : same_special (attr "annotation" (VNode KAnnAssign u p fs)) a ->
    reannotated false (VNode KAnnAssign u p fs) (VNode KAnnAssign u p (with_field "annotation" a fs))
| ra_returns k u p fs a : k = KFunctionDef \/ k = KAsyncFunctionDef ->
    attr "returns" (VNode k u p fs) <> VNone -> a <> VNone ->
    reannotated false (VNode k u p fs) (VNode k u p (with_field "returns" a fs))
| ra_node b k u p fs fs' : In k holders -> reannotated_fields (kind_eqb k KClassDef) fs fs' ->
    reannotated b (VNode k u p fs) (VNode k u p fs')
with reannotated_fields : bool -> list (string * pyval) -> list (string * pyval) -> Prop :=
| rf_nil b : reannotated_fields b [] []
| rf_same b f x fs fs' : reannotated_fields b fs fs' -> reannotated_fields b ((f, x) :: fs) ((f, x) :: fs')
| rf_block b f l l' fs fs' : In f blocks -> reannotated_block b l l' -> reannotated_fields b fs fs' ->
    reannotated_fields b ((f, VList l) :: fs) ((f, VList l') :: fs')
with reannotated_block : bool -> list pyval -> list pyval -> Prop :=
| rb_nil b : reannotated_block b [] []
| rb_keep b x x' l l' : reannotated b x x' -> reannotated_block b l l' -> reannotated_block b (x :: l) (x' :: l').
