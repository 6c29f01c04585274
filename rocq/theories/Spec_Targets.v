(** Several targets for one major version (C07, C54, C73). *)
From Verif Require Import PyBase Utility Config Spec_Base Spec_Utility Spec_Main.

(** [x] counts for its major version: none of those behind it is for the same one. *)
Definition counts {A} (maj : A -> Z) (l : list A) (x : A) : Prop :=
  exists a b, l = a ++ x :: b /\ forall y, In y b -> maj y <> maj x.
Definition target_counts : list target -> target -> Prop := counts (fun t : target => fst (snd t)).

(** Every target that counts is met by the version required for its major. *)
Definition targets_passed (targets : list target) (m : mins) : Prop :=
  forall t, target_counts targets t -> exists v, required m v /\ target_ok t v.

(** A run that ends with exit code 0; with one target per major version at most, a successful one. *)
Definition passes (c : config) (m : mins) : Prop :=
  c_targets c = [] \/ targets_passed (c_targets c) m \/ (c_only_show_violations c = true /\ nothing_detected m).
