(** Specification for the tips at the end of a run (C72). *)
From Coq Require Import Sorting.Sorted.
From Verif Require Import PyBase Utility RulesData Rules Config State Visitor Parser Processor Spec_Base Spec_Rules Spec_Detection
  Spec_Main Spec_Messages.

(** What is printed. The tips have two lines each, but for the last one. *)
Definition annotations_tip : string :=
  "- Generic or literal annotations might be in use. If so, try using: --eval-annotations" +++ nl +++
  "  But check the caveat section: https://github.com/netromdk/vermin#caveats".
Definition backport_options (names : list string) : list string := flat_map (fun b => ["--backport"; b]) names.
Definition backports_said : string := "- You're using potentially backported modules: ".
Definition backports_tip (names : list string) : string :=
  backports_said +++ join ", " names +++ nl +++
  "  If so, try using the following for better results: " +++ join " " (backport_options names).
Definition comments_tip : string :=
  "- Since '# novm' or '# novermin' weren't used, a speedup can be achieved using: --no-parse-comments".

(** The backport [b] is switched on, perhaps in a particular version. *)
Definition enabled (c : config) (b : string) : Prop := exists n, In n (c_backports c) /\ based_on n b.

(** What the files with a verdict have in common with the tips. *)
Definition may_annotate (rs : list (option presult)) : Prop := exists r m, counted rs r m /\ r_maybe r = true.
Definition backport_used (rs : list (option presult)) (b : string) : Prop := exists r m, counted rs r m /\ In b (r_bps r).
Definition comment_used (rs : list (option presult)) : Prop := exists r m, counted rs r m /\ r_novermin r <> [].

(** The backports worth naming, in order. *)
Definition to_suggest (c : config) (rs : list (option presult)) (names : list string) : Prop :=
  StronglySorted str_lt names /\ forall b, In b names <-> backport_used rs b /\ ~ enabled c b.

(** A file is read to the end. *)
Definition read_well (f : fcontent) : Prop := forall source node x, f <> FcSource source (PTree node (inl x)).
