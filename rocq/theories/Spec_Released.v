(** Which versions can be reported (C91). *)
From Verif Require Import PyBase.

(** The releases of Python up to the newest the rules speak of. *)
Inductive released : ver -> Prop :=
| rel2 n : 0 <= n <= 7 -> released (2, n)
| rel3 n : 0 <= n <= 12 -> released (3, n).

(** What is said of the major version [M]: ruled out, nothing known, or a release of it. *)
Inductive sayable (M : Z) : option ver -> Prop :=
| say_out : sayable M None
| say_unknown : sayable M (Some (0, 0))
| say_release v : released v -> fst v = M -> sayable M (Some v).
Definition sayable_mins (m : option ver * option ver) : Prop := sayable 2 (fst m) /\ sayable 3 (snd m).

(** The code is for the major version [M], from some release on. *)
Definition for_major (m : option ver * option ver) (M : Z) : Prop :=
  exists v, (fst m = Some v \/ snd m = Some v) /\ fst v = M.
