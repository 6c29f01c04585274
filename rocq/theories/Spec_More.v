(** More code and more files (C75). *)
From Verif Require Import PyBase Config AstKinds Ast State Processor Spec_Base Spec_Visitor Spec_Main.

(** The tree of a source with these statements. *)
Definition source_tree (u : N) (stmts : list pyval) : pyval := VNode KModule u None [("body", VList stmts); ("type_ignores", VList [])].

(** Everything recorded in [s] is recorded in [s']. *)
Definition records_within (s s' : st) : Prop :=
  incl (s_modules s) (s_modules s') /\ incl (s_members s) (s_members s') /\ incl (s_kwargs s) (s_kwargs s') /\
  incl (s_ufds s) (s_ufds s') /\ incl (s_cehs s) (s_cehs s') /\ incl (s_cencs s) (s_cencs s') /\
  incl (s_strftimes s) (s_strftimes s') /\ incl (s_bytesdirs s) (s_bytesdirs s') /\ incl (s_typecodes s) (s_typecodes s') /\
  incl (s_flags s) (s_flags s').

(** [y] is the name of a module or of a member that was found. *)
Definition found_name (s : st) (y : string) : Prop := In y (s_modules s) \/ In y (s_members s).
(** Some of the code defines [y]. *)
Definition defined_in (stmts : list pyval) (y : string) : Prop := exists x n, In x stmts /\ below n x /\ defines n y.

(** The summary of a run over more files says no less. *)
Record says_no_less (s s' : summary) : Prop := {
  less_mins : mins_le (m_mins s) (m_mins s');
  less_unique : incl (m_unique s) (m_unique s');
  less_bps : incl (m_bps s) (m_bps s');
  less_incomp : m_incomp s = true -> m_incomp s' = true;
  less_novm : m_novm s = true -> m_novm s' = true;
  less_maybe : m_maybe s = true -> m_maybe s' = true
}.
