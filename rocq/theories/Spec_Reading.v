(** Specification for reading the parsable output of a whole run (C71). *)
From Verif Require Import PyBase Utility Config Processor Spec_Base Spec_Utility Spec_Detection Spec_MinVersions Spec_Formats.

(** A line of six fields about the file [p]. *)
Definition finding_line (p line : string) : Prop :=
  no_char (ascii_of_nat 10) line /\ exists l c v2 v3 f, fields line p l c v2 v3 f.

(** The line that gives the versions [m] required by [p]: no position, no text. For the run as a whole [p] is empty. *)
Definition result_line (p : string) (m : mins) (line : string) : Prop :=
  no_char (ascii_of_nat 10) line /\
  exists v2 v3, fields line p "" "" v2 v3 "" /\ writes 2 (fst m) v2 /\ writes 3 (snd m) v3.

(** The lines about a file with the result [r]: its findings, then its versions. Nothing about a file that is no
    Python code or whose findings contradict each other and, if only violations are shown, about one without. *)
Inductive about (c : config) (p : string) : option presult -> list string -> Prop :=
| about_other : about c p None []
| about_incompatible r : r_mins r = MNone -> about c p (Some r) []
| about_met r m : c_only_show_violations c = true -> r_mins r = MVers m -> r_text r = "" -> about c p (Some r) []
| about_shown r m ls line : r_mins r = MVers m -> r_text r = lines_text ls -> Forall (finding_line p) ls ->
    result_line p m line -> about c p (Some r) (ls ++ [line]).

(** The lines about several files, block after block. *)
Definition blocks_of (c : config) (files : list string) (rs : list (option presult)) (blocks : list (list string)) : Prop :=
  Forall2 (fun pr b => about c (fst pr) (snd pr) b) (combine files rs) blocks.

(** Versions [m] read from the last line of some block. *)
Definition block_says (blocks : list (list string)) (m : mins) : Prop :=
  exists p ls line, In (ls ++ [line]) blocks /\ result_line p m line.

(** All output but for lines that workers write: the blocks, then the versions of the run. *)
Definition readable (c : config) (files : list string) (rs : list (option presult)) (m : mins) (out : string) : Prop :=
  exists blocks line, out = lines_text (List.concat blocks ++ [line]) /\ blocks_of c files rs blocks /\ result_line "" m line /\
    (c_only_show_violations c = false -> is_join_of (block_says blocks) m).
