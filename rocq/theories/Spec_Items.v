(** How a list of versions is written (C05). *)
From Coq Require Import Floats.SpecFloat.
From Verif Require Import PyBase Utility Spec_Base.

(** Nothing is known: 0, 0.0 or (0, 0). *)
Inductive unknown : vitem -> Prop :=
| un_int : unknown (VPv (PInt 0))
| un_float b : unknown (VPv (PFloat (S754_zero b)))
| un_tup : unknown (VPv (PTup (0, 0))).

(** How the entry at place [n] is written, counted from 2; [fs] is str() of a float. *)
Inductive item_written (fs : spec_float -> string) (n : Z) : vitem -> string -> Prop :=
| iw_unknown v : unknown v -> item_written fs n v ("~" +++ z_str n)
| iw_none : item_written fs n (VPv PNone) ("!" +++ z_str n)
| iw_int z : z <> 0 -> item_written fs n (VPv (PInt z)) (z_str z)
| iw_float f : (forall b, f <> S754_zero b) -> item_written fs n (VPv (PFloat f)) (fs f)
| iw_tup x y : (x, y) <> (0, 0) -> item_written fs n (VPv (PTup (x, y))) (z_str x +++ "." +++ z_str y)
| iw_str s : item_written fs n (VStrI s) s.

(** All of them, with the separator between them. *)
Inductive items_written (fs : spec_float -> string) (sep : string) : Z -> list vitem -> string -> Prop :=
| is_one n v t : item_written fs n v t -> items_written fs sep n [v] t
| is_more n v t l r : item_written fs n v t -> l <> [] -> items_written fs sep (n + 1) l r -> items_written fs sep n (v :: l) (t +++ sep +++ r).

(** Lists that are refused: none at all, and an unknown version among three or more. *)
Definition refused (l : list vitem) : Prop := l = [] \/ ((exists v, In v l /\ unknown v) /\ (3 <= List.length l)%nat).
