(** Analyses with more exclusions, fewer features and more backports (C66, C67). *)
From Verif Require Import PyBase Config AstKinds Ast State Spec_Visitor.

(** [c'] excludes what [c] excludes and more, but no more keyword arguments; it enables no more features; what else
    a visit depends on is the same. *)
Definition keyword_exclusion (x : string) : Prop := exists f k, x = f +++ "(" +++ k +++ ")".
Definition laxer (c c' : config) : Prop :=
  (forall x, In x (c_exclusions_set c) -> In x (c_exclusions_set c')) /\
  (forall x, keyword_exclusion x -> In x (c_exclusions_set c') -> In x (c_exclusions_set c)) /\
  (forall x, In x (c_features c') -> In x (c_features c)) /\
  c_eval_annotations c = c_eval_annotations c' /\
  c_ignore_incomp c = c_ignore_incomp c'.
(** With the same features and the same backports. *)
Definition more_excluded (c c' : config) : Prop :=
  laxer c c' /\ (forall x, In x (c_features c) -> In x (c_features c')) /\ c_backports c = c_backports c'.
(** With all backports and more; the same ones for typing_extensions, of which it is false (C15). *)
Definition more_backports (c c' : config) : Prop :=
  (forall b, In b (c_backports c) -> In b (c_backports c')) /\
  (forall b t, b = "typing_extensions" +++ t -> In b (c_backports c') -> In b (c_backports c)).

(** Everything recorded in [s'] is recorded in [s], and features not in [lost] are recorded in both. *)
Definition records_less (lost : list flag) (s' s : st) : Prop :=
  incl (s_modules s') (s_modules s) /\ incl (s_members s') (s_members s) /\ s_kwargs s' = s_kwargs s /\
  incl (s_ufds s') (s_ufds s) /\ incl (s_cehs s') (s_cehs s) /\ incl (s_cencs s') (s_cencs s) /\
  s_strftimes s' = s_strftimes s /\ s_bytesdirs s' = s_bytesdirs s /\ s_typecodes s' = s_typecodes s /\
  incl (s_flags s') (s_flags s) /\ (forall f, In f (s_flags s) -> ~ In f lost -> In f (s_flags s')).

(** And sources are read the same way. *)
Definition same_texts (c c' : config) : Prop :=
  c_parse_comments c = c_parse_comments c' /\ c_pessimistic c = c_pessimistic c' /\ c_format c = c_format c'.
Definition more_excluded_reading (c c' : config) : Prop := more_excluded c c' /\ same_texts c c'.
Definition laxer_reading (c c' : config) : Prop := laxer c c' /\ more_backports c c' /\ same_texts c c'.
