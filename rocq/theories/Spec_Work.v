(** How much a visit does (C78), by the lines that [--dump] prints: one for every node that is visited. *)
From Verif Require Import PyBase Utility Config Paths AstKinds Ast State Visitor.

(** The number of nodes of a tree. *)
Fixpoint nodes (v : pyval) : nat :=
  match v with
  | VNode _ _ _ fs => S (list_sum (map (fun fx => nodes (snd fx)) fs))
  | VList l => list_sum (map nodes l)
  | _ => 0
  end.

(** The parts of a program that are gone through a second time: [finally] blocks, and the statements of a class. *)
Definition twice (k : kind) (f : string) : bool :=
  match k with
  | KTry => String.eqb f "finalbody"
  | KClassDef => String.eqb f "body"
  | _ => false
  end.

(** The number of them that stand in each other. *)
Fixpoint nested (v : pyval) : nat :=
  match v with
  | VNode k _ _ fs => list_max (map (fun fx => if twice k (fst fx) then S (nested (snd fx)) else nested (snd fx)) fs)
  | VList l => list_max (map nested l)
  | _ => 0
  end.

(** Every node counted as often as it is gone through: twice as often in each of these parts. *)
Fixpoint passes (v : pyval) : nat :=
  match v with
  | VNode k _ _ fs => S (list_sum (map (fun fx => if twice k (fst fx) then (passes (snd fx) + passes (snd fx))%nat else passes (snd fx)) fs))
  | VList l => list_sum (map passes l)
  | _ => 0
  end.

(** Node visits are dumped, and nothing else is printed while a file is visited. *)
Definition dumping (c : config) : Prop := c_print_visits c = true /\ c_quiet c = false /\ c_verbose c <= 0.
Definition dumped (s : st) : nat := List.length (s_out s).

(** [try: pass] with a [finally] that has such a statement in it, and so on; the innermost is [pass]. Layout: each one
    three lines below and two columns to the right of the one it stands in. *)
Definition a_pass (u : N) (l c : Z) : pyval := VNode KPass u (Some (l, c)) [].
Fixpoint finally_in_finally (n : nat) (u : N) (l c : Z) : pyval :=
  match n with
  | O => a_pass u l c
  | S m => VNode KTry u (Some (l, c))
      [("body", VList [a_pass (u + 1)%N (l + 1) (c + 2)]); ("handlers", VList []); ("orelse", VList []);
       ("finalbody", VList [finally_in_finally m (u + 2)%N (l + 3) (c + 2)])]
  end.
Definition module_of (l : list pyval) : pyval := VNode KModule 0%N None [("body", VList l); ("type_ignores", VList [])].
