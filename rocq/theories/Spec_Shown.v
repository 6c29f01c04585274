(** Specification for one set of findings behind every way to show them (C80). *)
From Verif Require Import PyBase Utility Config AstKinds Ast State Spec_Base Spec_Utility Spec_Detection Spec_Formats Spec_Same.

(** Something the analysis has to tell: from which verbosity on, and what. [f_known] is the line where it is known without
    the positions that are kept for full verbosity. *)
Record finding : Type := mkFinding {
  f_level : Z; f_text : string; f_line : option Z; f_col : option Z; f_known : option Z; f_versions : option mins; f_plural : option bool }.

(** A dump of the visited nodes may stand between the findings. *)
Inductive item : Type :=
| Tell (f : finding)
| Node (depth : Z) (dump : string).

(** The configurations look for the same things, and show the same of them when only violations are shown. Their
    formats, verbosities, quietness, dumps of nodes, tips and what they do about incompatible versions may differ. *)
Definition same_search (c c' : config) : Prop :=
  (forall x, In x (c_exclusions_set c) <-> In x (c_exclusions_set c')) /\
  (forall x, In x (c_features c) <-> In x (c_features c')) /\
  c_backports c = c_backports c' /\
  c_eval_annotations c = c_eval_annotations c' /\
  c_only_show_violations c = c_only_show_violations c' /\
  (c_only_show_violations c = true -> c_targets c = c_targets c').

(** When a finding is shown, *)
Definition is_shown (c : config) (f : finding) : Prop :=
  (c_format c = FParsable \/ c_quiet c = false) /\ f_level f <= c_verbose c.
(** and the line that shows it: a readable one, *)
Definition reads (verbose : Z) (f : finding) (line : string) : Prop :=
  exists pos req, line = pos +++ f_text f +++ req /\ position verbose (f_line f) (f_col f) pos /\
    requirement_text (f_text f) (f_plural f) (f_versions f) req.
(** or one of fields. Short of full verbosity its position is not worked out. *)
Definition parses (verbose : Z) (path : string) (f : finding) (line : string) : Prop :=
  exists l c v2 v3 t, line = path +++ ":" +++ l +++ ":" +++ c +++ ":" +++ v2 +++ ":" +++ v3 +++ ":" +++ t /\
    (3 <= verbose -> shows_num (f_line f) l /\ shows_num (f_col f) c) /\
    (verbose < 3 -> shows_num (f_known f) l /\ c = "") /\ shows_versions (f_versions f) v2 v3 /\ escaped (f_text f) t.
Definition line_of (c : config) (path : string) (f : finding) (line : string) : Prop :=
  match c_format c with FDefault => reads (c_verbose c) f line | FParsable => parses (c_verbose c) path f line end.
Definition bar (n : Z) : string := srepeat "| " (Z.to_nat n).

(** [renders c path items lines]: the lines are those of the items to be shown, in order. *)
Inductive renders (c : config) (path : string) : list item -> list string -> Prop :=
| rn_nil : renders c path [] []
| rn_shown f l line ls : is_shown c f -> line_of c path f line -> renders c path l ls ->
    renders c path (Tell f :: l) (line :: ls)
| rn_hidden f l ls : ~ is_shown c f -> renders c path l ls -> renders c path (Tell f :: l) ls
| rn_node n t l ls : c_print_visits c = true -> c_quiet c = false -> renders c path l ls ->
    renders c path (Node n t :: l) ((bar n +++ t) :: ls)
| rn_no_node n t l ls : c_print_visits c = false \/ c_quiet c = true -> renders c path l ls ->
    renders c path (Node n t :: l) ls.
