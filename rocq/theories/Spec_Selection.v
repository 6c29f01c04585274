(** Settings on which files to look at (C89). *)
From Verif Require Import PyBase Utility RulesData Rules Config Paths Pool Detection Spec_Base Spec_Detection.

(** Only these settings differ. *)
Definition same_but_selection (c c' : config) : Prop :=
  c' = w_analyze_hidden (c_analyze_hidden c') (w_scan_symlink_folders (c_scan_symlink_folders c') (w_exclusion_regex_set (c_exclusion_regex_set c') c)).

(** [c'] differs from [c] only in that hidden files, or folders behind symbolic links, are looked at as well, or in that it has
    fewer exclusion patterns. *)
Record looks_further (c c' : config) : Prop := {
  lf_rest : same_but_selection c c';
  lf_hidden : c_analyze_hidden c = true -> c_analyze_hidden c' = true;
  lf_links : c_scan_symlink_folders c = true -> c_scan_symlink_folders c' = true;
  lf_patterns : incl (c_exclusion_regex_set c') (c_exclusion_regex_set c)
}.

Section Kept.
  Variables (fs : fsys) (cwd : string) (search : string -> string -> bool) (c : config).

  (** The settings keep from looking at the path [p], which is [d] folders below a given one. *)
  Inductive kept_from : nat -> string -> Prop :=
  | kf_dot d p : c_analyze_hidden c = false -> p <> "." -> begins "." p -> kept_from d p
  | kf_entry d f names n : c_analyze_hidden c = false -> fs_listdir fs f = Some names -> In n names -> begins "." n ->
      kept_from (S d) (path_join f n)
  | kf_link d p : c_scan_symlink_folders c = false -> fs_lstat fs (actual cwd c p) = Some KLnk -> fs_stat fs (actual cwd c p) = Some KDir ->
      kept_from (S d) p
  | kf_pattern d p r : In r (c_exclusion_regex_set c) -> search r p = true -> kept_from d p.

  (** One comes from [p] to [q] by going into folders. *)
  Inductive leads_to (p : string) : string -> Prop :=
  | lt_here : leads_to p p
  | lt_into q names n : leads_to p q -> fs_listdir fs (actual cwd c q) = Some names -> In n names -> leads_to p (path_join (actual cwd c q) n).
End Kept.
