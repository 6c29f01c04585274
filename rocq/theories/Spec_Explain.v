(** Specification for the lines about a source and the verdict on it (C63). *)
From Verif Require Import PyBase Utility Config Formats AstKinds Ast State MinVersions Spec_Base Spec_Utility Spec_MinVersions Spec_Formats.

(** Findings are written down: neither quiet with the default format, nor less verbose than [-vvv]. *)
Definition outspoken (c : config) : Prop := (c_format c = FParsable \/ c_quiet c = false) /\ 3 <= c_verbose c.

(** [line] is one that tells of a requirement [r] ([None]: tells of none). *)
Definition tells_of (e : env) (r : option mins) (line : string) : Prop :=
  exists msg l c plural, line = format_output_line (e_cfg e) msg (e_path e) l c r plural.

(** A requirement that some line tells of. *)
Definition explained (e : env) (lines : list string) (r : mins) : Prop :=
  exists line, In line lines /\ tells_of e (Some r) line.

(** What a reader of parsable lines takes from them: a line whose version fields say [r]. *)
Definition read_off (lines : list string) (r : mins) : Prop :=
  exists line p l c v2 v3 f, In line lines /\ fields line p l c v2 v3 f /\ writes 2 (fst r) v2 /\ writes 3 (snd r) v3.
