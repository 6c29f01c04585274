(** Settings about names that a source does not say (C87). *)
From Verif Require Import PyBase Rules RulesData Config Ast State Spec_Base Spec_Visitor Spec_Rules.

(** What is between the dots of a name. *)
Definition parts (m : string) : list string := split_char "." m.

(** [says v t]: the text [t] stands in the tree: an identifier, or the dotted name of a module. Values of constants are none. *)
Definition says (v : pyval) (t : string) : Prop := exists n f, below n v /\ f <> "value" /\ attr f n = VStr t.

(** The names of the types of literals, which no identifier is needed for, and the name of what has none. *)
Definition literal_types : list string := ["dict"; "set"; "list"; "str"; "int"; "float"; "bytes"; ""].

(** Names whose every part stands in the tree. *)
Definition made_of (v : pyval) (m : string) : Prop :=
  forall p, In p (parts m) -> In p literal_types \/ exists t, says v t /\ In p (parts t).

(** Only backports and exclusions differ. *)
Definition same_settings (c c' : config) : Prop := c' = w_exclusions_set (c_exclusions_set c') (w_backports (c_backports c') c).

(** No difference is about a name that is made of what the source says. Backports are for a module, with or without a version. *)
Record about_others (v : pyval) (c c' : config) : Prop := {
  ab_backports : forall n m, made_of v n -> m = n \/ versioned m n -> (In m (c_backports c) <-> In m (c_backports c'));
  ab_names : forall m, made_of v m -> (In m (c_exclusions_set c) <-> In m (c_exclusions_set c'));
  ab_kwargs : forall m k, made_of v m -> (In (m +++ "(" +++ k +++ ")") (c_exclusions_set c) <-> In (m +++ "(" +++ k +++ ")") (c_exclusions_set c'));
  ab_handlers : forall t, In ("ceh=" +++ t) (c_exclusions_set c) <-> In ("ceh=" +++ t) (c_exclusions_set c');
  ab_encodings : forall t, In ("ce=" +++ t) (c_exclusions_set c) <-> In ("ce=" +++ t) (c_exclusions_set c')
}.

(** Exclusions as users write them: a name, or a keyword argument of a function; not of codecs. [y] is about nothing in the tree. *)
Definition excludes_other (v : pyval) (y : string) : Prop :=
  ~ made_of v y /\ (forall m k, y = m +++ "(" +++ k +++ ")" -> ~ made_of v m) /\
  (forall t, y <> "ceh=" +++ t) /\ (forall t, y <> "ce=" +++ t).
(** The backport, with or without a version, is of no module in the tree. *)
Definition backport_of_other (v : pyval) (b : string) : Prop := forall n, b = n \/ versioned b n -> ~ made_of v n.
