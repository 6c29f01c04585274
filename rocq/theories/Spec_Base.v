(** Specifications, independent of the model's helper functions: what "requirement", "join",
    "clash" and "satisfies" mean. *)
From Verif Require Import PyBase.

(** Order of versions: major first, then minor. *)
Definition ver_le (a b : ver) : Prop := fst a < fst b \/ (fst a = fst b /\ snd a <= snd b).
Definition ver_lt (a b : ver) : Prop := fst a < fst b \/ (fst a = fst b /\ snd a < snd b).

(** A requirement of one major line: [None] is "incompatible", the strictest requirement. *)
Definition req_le (a b : option ver) : Prop :=
  match a, b with
  | _, None => True
  | None, Some _ => False
  | Some x, Some y => ver_le x y
  end.

(** [r] is the join of [a] and [b]: incompatible if either one is, otherwise the larger. *)
Definition is_join (a b r : option ver) : Prop :=
  match a, b with
  | Some x, Some y =>
      exists z, r = Some z /\ (z = x \/ z = y) /\ ver_le x z /\ ver_le y z
  | _, _ => r = None
  end.

Definition mins_le (a b : mins) : Prop := req_le (fst a) (fst b) /\ req_le (snd a) (snd b).
Definition is_mins_join (a b r : mins) : Prop :=
  is_join (fst a) (fst b) (fst r) /\ is_join (snd a) (snd b) (snd r).

Definition py2_only (m : mins) : Prop := fst m <> None /\ snd m = None.
Definition py3_only (m : mins) : Prop := fst m = None /\ snd m <> None.
Definition clashing (a b : mins) : Prop := (py2_only a /\ py3_only b) \/ (py3_only a /\ py2_only b).

(** [r] is the least requirement at least as strict as every member of [l]. *)
Definition is_lub (l : list mins) (r : mins) : Prop :=
  (forall m, In m l -> mins_le m r) /\
  (forall u, (forall m, In m l -> mins_le m u) -> mins_le r u).

(** Versions with non-negative components. *)
Definition ver_nonneg (v : ver) : Prop := 0 <= fst v /\ 0 <= snd v.
Definition mins_nonneg (m : mins) : Prop :=
  (forall v, fst m = Some v -> ver_nonneg v) /\ (forall v, snd m = Some v -> ver_nonneg v).
