(** Syntax trees as CPython's [ast] module (3.12) hands them to the visitor: generic nodes with a
    kind, an identity, an optional position and named fields, plus the tree walks of the standard
    library that source_visitor.py uses. The tree shapes themselves come from CPython, not /repo. *)
From Verif Require Import PyBase Utility AstKinds.

(** A field value. Floats and complex numbers are carried as their [repr] text: vermin only looks
    at their type and text. [VBytes] carries the raw bytes. [uid] is the object's identity. *)
Inductive pyval : Type :=
| VNone
| VBool (b : bool)
| VInt (z : Z)
| VFloat (repr : string)
| VComplex (repr : string)
| VStr (s : string)
| VBytes (s : string)
| VEllipsis
| VList (l : list pyval)
| VNode (k : kind) (uid : N) (pos : option (Z * Z)) (fs : list (string * pyval)).

(** Structural induction through lists and fields. *)
Section Ind.
  Variable P : pyval -> Prop.
  Hypothesis HNone : P VNone.
  Hypothesis HBool : forall b, P (VBool b).
  Hypothesis HInt : forall z, P (VInt z).
  Hypothesis HFloat : forall s, P (VFloat s).
  Hypothesis HComplex : forall s, P (VComplex s).
  Hypothesis HStr : forall s, P (VStr s).
  Hypothesis HBytes : forall s, P (VBytes s).
  Hypothesis HEllipsis : P VEllipsis.
  Hypothesis HList : forall l, Forall P l -> P (VList l).
  Hypothesis HNode : forall k u p fs, Forall (fun fx => P (snd fx)) fs -> P (VNode k u p fs).
  Fixpoint pyval_rect' (v : pyval) : P v :=
    match v with
    | VNone => HNone
    | VBool b => HBool b
    | VInt z => HInt z
    | VFloat s => HFloat s
    | VComplex s => HComplex s
    | VStr s => HStr s
    | VBytes s => HBytes s
    | VEllipsis => HEllipsis
    | VList l => HList l ((fix go l := match l return Forall P l with
                                        | [] => Forall_nil _
                                        | x :: r => Forall_cons _ (pyval_rect' x) (go r)
                                        end) l)
    | VNode k u p fs =>
        HNode k u p fs ((fix go l := match l return Forall (fun fx => P (snd fx)) l with
                                     | [] => Forall_nil _
                                     | x :: r => Forall_cons _ (pyval_rect' (snd x)) (go r)
                                     end) fs)
    end.
End Ind.

(** [isinstance(v, ast.K)] for the concrete node classes. *)
Definition is_kind (k : kind) (v : pyval) : bool :=
  match v with VNode k' _ _ _ => kind_eqb k k' | _ => false end.

Definition is_node (v : pyval) : bool := match v with VNode _ _ _ _ => true | _ => false end.
Definition is_none (v : pyval) : bool := match v with VNone => true | _ => false end.

(** Attribute access [node.f]. Simplification: nodes made by the parser carry all their fields; a
    missing one reads as None. *)
Definition fields (v : pyval) : list (string * pyval) := match v with VNode _ _ _ fs => fs | _ => [] end.
Definition fld (f : string) (fs : list (string * pyval)) : pyval :=
  match assoc f fs with Some v => v | None => VNone end.
Definition attr (f : string) (v : pyval) : pyval := fld f (fields v).

(** A list-valued field; a str-valued field; a list. *)
Definition as_list (v : pyval) : list pyval := match v with VList l => l | _ => [] end.
Definition as_str (v : pyval) : string := match v with VStr s => s | _ => "" end.
Definition as_ostr (v : pyval) : option string := match v with VStr s => Some s | _ => None end.
Definition flist (f : string) (fs : list (string * pyval)) : list pyval := as_list (fld f fs).
Definition fstr (f : string) (fs : list (string * pyval)) : string := as_str (fld f fs).

(** [node.lineno], [node.col_offset]. Simplification: statements, expressions, handlers, arguments,
    keywords and aliases made by the parser always have a position. *)
Definition pos_line (p : option (Z * Z)) : Z := match p with Some (l, _) => l | None => 0 end.
Definition pos_col (p : option (Z * Z)) : Z := match p with Some (_, c) => c | None => 0 end.
Definition pos_of (v : pyval) : option (Z * Z) := match v with VNode _ _ p _ => p | _ => None end.
Definition lineno (v : pyval) : Z := pos_line (pos_of v).
Definition col_offset (v : pyval) : Z := pos_col (pos_of v).
Definition uid_of (v : pyval) : N := match v with VNode _ u _ _ => u | _ => 0%N end.

(** [hasattr(v, "id")] holds of Name nodes only; its value. *)
Definition name_id (v : pyval) : option string :=
  match v with VNode KName _ _ fs => Some (fstr "id" fs) | _ => None end.

(** The value of a Constant. [hasattr(v, "s")] holds of Constant nodes only (deprecated alias). *)
Definition const_val (v : pyval) : option pyval :=
  match v with VNode KConstant _ _ fs => Some (fld "value" fs) | _ => None end.

(** isinstance(v, ast.Str): a Constant holding a str. *)
Definition str_val (v : pyval) : option string :=
  match const_val v with Some (VStr s) => Some s | _ => None end.

(** isinstance(v, ast.Bytes). *)
Definition is_bytes_node (v : pyval) : bool :=
  match const_val v with Some (VBytes _) => true | _ => false end.

(** "{}".format(constant). *)
Definition const_text (v : pyval) : string :=
  match v with
  | VNone => "None"
  | VBool b => if b then "True" else "False"
  | VInt z => z_str z
  | VFloat s => s
  | VComplex s => s
  | VStr s => s
  | VBytes s => "b" +++ py_repr s
  | VEllipsis => "Ellipsis"
  | _ => ""
  end.

(** ** Walks *)

Fixpoint merge {A} (a b : list (list A)) : list (list A) :=
  match a, b with
  | [], b => b
  | a, [] => a
  | x :: a', y :: b' => (x ++ y) :: merge a' b'
  end.

Fixpoint merge_all {A} (l : list (list (list A))) : list (list A) :=
  match l with [] => [] | x :: r => merge x (merge_all r) end.

(** The nodes at each depth below a value, from left to right. *)
Fixpoint levels (v : pyval) : list (list pyval) :=
  match v with
  | VNode k u p fs => [v] :: merge_all (map (fun fx => levels (snd fx)) fs)
  | VList l => merge_all (map levels l)
  | _ => []
  end.

(** [ast.walk(node)]: breadth first. *)
Definition walk (v : pyval) : list pyval := List.concat (levels v).

(** The same, pruned at Subscript and Attribute nodes. *)
Fixpoint target_levels (v : pyval) : list (list pyval) :=
  match v with
  | VNode KSubscript _ _ _ => []
  | VNode KAttribute _ _ _ => []
  | VNode k u p fs => [v] :: merge_all (map (fun fx => target_levels (snd fx)) fs)
  | VList l => merge_all (map target_levels l)
  | _ => []
  end.

(** source_visitor.py:56-65 [assign_target_walk]. *)
Definition assign_target_walk (v : pyval) : list pyval := List.concat (target_levels v).
