(** Model of the f-string self-doc heuristic, /repo/vermin/source_visitor.py:51-54, 1286-1522. *)
From Verif Require Import PyBase Utility RulesData Rules Config Formats Paths AstKinds Ast State Visitor.

(** source_visitor.py:51-54 [trim_fstring_value]. *)
Definition trim_fstring_value (s : string) : string := remove_whitespace s ["("; ")"]%char.

(** What one node of the walk does: the pieces it appends (or an exception), whether it makes the
    text a call, whether it ends the walk. A piece None comes from a complex number
    (source_visitor.py:793-800). *)
Record xact : Type := mkX {
  x_pieces : res (list (option string));
  x_call : bool;
  x_break : bool
}.

(** A value with the action of every node below it. *)
Inductive xtree : Type :=
| XNode (a : xact) (kids : list (string * xtree))
| XList (l : list xtree)
| XOther.

Fixpoint xlevels (t : xtree) : list (list xact) :=
  match t with
  | XNode a ks => [a] :: merge_all (map (fun fx => xlevels (snd fx)) ks)
  | XList l => merge_all (map xlevels l)
  | XOther => []
  end.

(** The loop of source_visitor.py:1289-1496. *)
Fixpoint xrun (l : list xact) (value : list (option string)) (is_call : bool)
  : res (list (option string) * bool) :=
  match l with
  | [] => Ok (value, is_call)
  | a :: r =>
      letr ps := x_pieces a in
      if x_break a then Ok (value ++ ps, is_call || x_call a)
      else xrun r (value ++ ps) (is_call || x_call a)
  end.

(** [sep.join(value)] raises TypeError on a None. *)
Definition join_pieces (sep : string) (l : list (option string)) : res string :=
  if existsb (fun o => match o with None => true | Some _ => false end) l
  then Err TypeError else Ok (join sep (somes l)).

(** source_visitor.py:1286-1500 [__extract_fstring_value] of a node; ast.walk(None) raises
    AttributeError. *)
Definition xtext (t : xtree) : res string :=
  match t with
  | XNode _ _ =>
      letr (value, is_call) := xrun (List.concat (xlevels t)) [] false in
      if is_call then mapr (fun s => s +++ srepeat ")" (List.length value - 1)) (join_pieces "(" value)
      else join_pieces "." value
  | _ => Err AttributeError
  end.

Definition xkid (f : string) (ks : list (string * xtree)) : xtree :=
  match assoc f ks with Some t => t | None => XOther end.
Definition xitems (t : xtree) : list xtree := match t with XList l => l | _ => [] end.

Fixpoint texts (l : list xtree) : res (list string) :=
  match l with
  | [] => Ok []
  | t :: r => letr x := xtext t in letr xs := texts r in Ok (x :: xs)
  end.

Definition quiet_act : xact := mkX (Ok []) false false.
Definition piece (s : string) : xact := mkX (Ok [Some s]) false false.
Definition last_piece (m : res string) : xact := mkX (mapr (fun s => [Some s]) m) false true.

(** source_visitor.py:1299-1391: operators. *)
Definition op_text (k : kind) : option string :=
  match k with
  | KAdd => Some "+" | KSub => Some "-" | KDiv => Some "/" | KFloorDiv => Some "//" | KMult => Some "*"
  | KMatMult => Some "@" | KMod => Some "%" | KPow => Some "**" | KBitXor => Some "^" | KBitOr => Some "|"
  | KBitAnd => Some "&" | KNot => Some "not " | KUSub => Some "-" | KUAdd => Some "+" | KInvert => Some "~"
  | KLShift => Some "<<" | KRShift => Some ">>" | KIn => Some "in " | KNotIn => Some "not in "
  | KIs => Some " is " | KIsNot => Some " is not " | KOr => Some " or " | KAnd => Some " and "
  | KEq => Some " == " | KNotEq => Some " != " | KLtE => Some " <= " | KGtE => Some " >= "
  | KGt => Some " > " | KLt => Some " < "
  | _ => None
  end.

(** One iteration of source_visitor.py:1289-1496 for a node with children [ks]. *)
Definition xaction (man : list (string * string)) (v : pyval) (k : kind) (fs : list (string * pyval))
           (ks : list (string * xtree)) : xact :=
  let t f := xtext (xkid f ks) in
  let ts f := texts (xitems (xkid f ks)) in
  match k with
  | KName => piece (fstr "id" fs)
  | KConstant =>
      piece (match fld "value" fs with
             | VStr s => String dq (s +++ chr dq)
             | x => const_text x
             end)
  | Kcomprehension =>
      last_piece (letr a := t "target" in letr b := t "iter" in Ok (a +++ " in " +++ b))
  | KAttribute => mkX (get_attribute_name man v) false true
  | Kkeyword =>
      last_piece (letr x := t "value" in
                  Ok (match as_ostr (fld "arg" fs) with Some a => a | None => "None" end +++ "=" +++ x))
  | KCall =>
      if (List.length (flist "args" fs) =? 0)%nat && (List.length (flist "keywords" fs) =? 0)%nat
      then mkX (letr f := t "func" in Ok [Some (f +++ "()")]) true true
      else mkX (Ok []) true false
  | KBinOp =>
      last_piece (letr a := t "left" in letr o := t "op" in letr b := t "right" in Ok (a +++ o +++ b))
  | KUnaryOp => last_piece (letr o := t "op" in letr a := t "operand" in Ok (o +++ a))
  | KBoolOp => last_piece (letr o := t "op" in letr l := ts "values" in Ok (join o l))
  | KIfExp =>
      last_piece (letr c := t "test" in letr a := t "body" in letr b := t "orelse" in
                  Ok (a +++ " if " +++ c +++ " else " +++ b))
  | KTuple => last_piece (letr l := ts "elts" in Ok ("(" +++ join "," l +++ ")"))
  | KList => last_piece (letr l := ts "elts" in Ok ("[" +++ join "," l +++ "]"))
  | KSet => last_piece (letr l := ts "elts" in Ok ("{" +++ join "," l +++ "}"))
  | KDict =>
      last_piece (letr a := ts "keys" in letr b := ts "values" in
                  Ok ("{" +++ join "," (map (fun kv => fst kv +++ ":" +++ snd kv) (combine a b)) +++ "}"))
  | KListComp =>
      last_piece (letr a := t "elt" in letr g := ts "generators" in
                  Ok ("[" +++ a +++ " for " +++ join " " g +++ "]"))
  | KSetComp =>
      last_piece (letr a := t "elt" in letr g := ts "generators" in
                  Ok ("{" +++ a +++ " for " +++ join " " g +++ "}"))
  | KDictComp =>
      last_piece (letr a := t "key" in letr b := t "value" in letr g := ts "generators" in
                  Ok ("{" +++ a +++ ":" +++ b +++ " for " +++ join " " g +++ "}"))
  | KGeneratorExp =>
      last_piece (letr a := t "elt" in letr g := ts "generators" in
                  Ok ("(" +++ a +++ " for " +++ join " " g +++ ")"))
  | KCompare =>
      last_piece (letr a := t "left" in letr o := ts "ops" in letr b := ts "comparators" in
                  Ok (a +++ sconcat (map (fun oc => fst oc +++ " " +++ snd oc) (combine o b))))
  | KSubscript =>
      last_piece (letr a := t "value" in letr b := t "slice" in Ok (a +++ "[" +++ b +++ "]"))
  | k => match op_text k with Some s => piece s | None => quiet_act end
  end.

Fixpoint xsem (man : list (string * string)) (v : pyval) : xtree :=
  match v with
  | VNode k _ _ fs =>
      let ks := map (fun fx => (fst fx, xsem man (snd fx))) fs in
      XNode (xaction man v k fs ks) ks
  | VList l => XList (map (xsem man) l)
  | _ => XOther
  end.

Definition extract_fstring_value (man : list (string * string)) (v : pyval) : res string := xtext (xsem man v).

(** The loop of source_visitor.py:1506-1522 over the values of an f-string. *)
Fixpoint selfdoc_loop (man : list (string * string)) (l : list pyval) : res bool :=
  match l with
  | val :: ((next :: _) as rest) =>
      match str_val val with
      | Some s =>
          if endswith "=" (strip s) && is_kind KFormattedValue next then
            letr x := extract_fstring_value man (attr "value" next) in
            let x := trim_fstring_value x in
            if negb (String.eqb x "") && endswith (x +++ "=") (trim_fstring_value s) then Ok true
            else selfdoc_loop man rest
          else selfdoc_loop man rest
      | None => selfdoc_loop man rest
      end
  | _ => Ok false
  end.

(** source_visitor.py:1505-1522 for a JoinedStr node: the value of [e_selfdoc] in the actual code. *)
Definition selfdoc (man : list (string * string)) (v : pyval) : res bool :=
  selfdoc_loop man (as_list (attr "values" v)).
