(** When a run in violations mode fails (C82). *)
From Verif Require Import PyBase Utility RulesData Rules Config Formats Paths AstKinds Ast State Visitor MinVersions Parser Detection Arguments Processor Main
  Spec_Base Spec_Utility Spec_Rules Spec_Formats Spec_MinVersions Spec_Explain Spec_Main Spec_Targets.

(** Versions [r] that lines about the file [p] tell of: those of a rule of its tree, or those of the
    error of a text that is no tree. *)
Inductive finding (h : hooks) (major : Z) (c : config) (file : string -> fcontent) (p : string) : mins -> Prop :=
| fi_rule source text node nov e s m s' r : file p = FcSource source text -> parser_detect major c text = DTree node nov ->
    make_visitor h c p source nov = Ok e -> tour e node = Ok s -> minimum_versions e s = Ok (m, s') ->
    triggered (bps_of e) s r -> explained e (output_lines e s') r -> finding h major c file p r
| fi_syntax source text r line rest : file p = FcSource source text -> parser_detect major c text = DVerdict r (line :: rest) ->
    finding h major c file p r.

(** [r] is above what some target allows. *)
Definition above_some (c : config) (r : mins) : Prop := exists x t, In (x, t) (c_targets c) /\ above r t.

(** Every target is an upper bound: [-t=3.4-]. *)
Definition upper_bounds (c : config) : Prop := forall x t, In (x, t) (c_targets c) -> x = false.

(** No [long] was counted, whose line tells of no versions. *)
Definition no_long (h : hooks) (major : Z) (c : config) (file : string -> fcontent) (p : string) : Prop :=
  forall source text node nov e s, file p = FcSource source text -> parser_detect major c text = DTree node nov ->
    make_visitor h c p source nov = Ok e -> tour e node = Ok s -> ~ In FLongV2 (s_flags s).

(** Nothing is known of either major, or something of both. *)
Definition decided (m : mins) : Prop := m = zero_mins \/ (fst m <> Some (0, 0) /\ snd m <> Some (0, 0)).
