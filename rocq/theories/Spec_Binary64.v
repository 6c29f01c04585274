(** Specification for the sort keys in binary64 (C09, C10, C50). *)
From Verif Require Import PyBase Utility Config Binary64 Spec_Base Spec_Utility.

(** A number of binary64, in units of 2^-1074: at most 53 significant bits. *)
Definition representable (x : Z) : Prop := exists m e, 0 <= m < 2 ^ 53 /\ 0 <= e /\ x = m * 2 ^ e.
(** [r] is a number of binary64 and none is nearer to [n / d]. *)
Definition nearest (n d r : Z) : Prop :=
  representable r /\ forall x, representable x -> Z.abs (r * d - n) <= Z.abs (x * d - n).

(** A position in a file of at most four million lines, none wider than 999 characters. *)
Definition small_position (l : Z) (c : option Z) : Prop := 1 <= l <= 4000000 /\ forall x, c = Some x -> 0 <= x < 1000.

(** Lines as they are printed: with such a position, or without one. *)
Definition ordinary (s : string) : Prop :=
  (exists l c t, s = render l c t /\ small_position l c) \/ forall r, s <> "L" +++ r.
Definition digits (s : string) : Prop := forall a c b, s = a +++ String c b -> is_digit c = true.
Definition no_newline (s : string) : Prop := forall a b, s <> a +++ nl +++ b.
Definition ordinary_parsable (s : string) : Prop :=
  (exists p l c t, plain_path p /\ s = render_parsable p l c t /\ small_position l c) \/
  forall p d d' t, s = p +++ ":" +++ d +++ ":" +++ d' +++ ":" +++ t -> no_newline p -> digits d -> digits d' -> d = "".
Definition ordinary_line (c : config) (s : string) : Prop :=
  match c_format c with FDefault => ordinary s | FParsable => ordinary_parsable s end.
