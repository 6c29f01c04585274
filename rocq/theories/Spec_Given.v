(** The ways to give files to a run (C83). *)
From Verif Require Import PyBase Utility RulesData Rules Config Paths Pool Detection Spec_Base Spec_Detection.

(** Names as folders list them: not empty, not "." or "..", and without a slash. *)
Definition plain_name (n : string) : Prop := n <> "" /\ n <> "." /\ n <> ".." /\ no_char "/" n.
Definition plain_listings (fs : fsys) : Prop :=
  forall d names n, fs_listdir fs d = Some names -> In n names -> plain_name n.

(** The path [p] names [q]. *)
Definition names_path (c : config) (cwd p q : string) : Prop := q = if c_make_paths_absolute c then abspath cwd p else p.

(** [paths'] gives the same files as [paths], which were found to be [files]: each of them is one of
    [paths] or names one of the files, and all of [paths] or all of the files are among them. *)
Definition other_way (c : config) (cwd : string) (paths files paths' : list string) : Prop :=
  (forall p, In p paths' -> In p paths \/ exists q, names_path c cwd p q /\ In q files) /\
  ((forall p, In p paths -> In p paths') \/ (forall q, In q files -> exists p, In p paths' /\ names_path c cwd p q)).
