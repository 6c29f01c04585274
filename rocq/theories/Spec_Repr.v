(** What the printed form of a configuration tells (C76). *)
From Coq Require Import Permutation Sorted.
From Verif Require Import PyBase Utility RulesData Rules Config.

(** Two configurations with the same settings; the order in which things were added to the sets is
    not a setting. *)
Record same_settings (a b : config) : Prop := {
  ss_quiet : c_quiet a = c_quiet b;
  ss_verbose : c_verbose a = c_verbose b;
  ss_visits : c_print_visits a = c_print_visits b;
  ss_processes : c_processes a = c_processes b;
  ss_incomp : c_ignore_incomp a = c_ignore_incomp b;
  ss_pessimistic : c_pessimistic a = c_pessimistic b;
  ss_tips : c_show_tips a = c_show_tips b;
  ss_hidden : c_analyze_hidden a = c_analyze_hidden b;
  ss_exclusions : Permutation (c_exclusions_set a) (c_exclusions_set b);
  ss_regex : Permutation (c_exclusion_regex_set a) (c_exclusion_regex_set b);
  ss_absolute : c_make_paths_absolute a = c_make_paths_absolute b;
  ss_backports : Permutation (c_backports a) (c_backports b);
  ss_features : Permutation (c_features a) (c_features b);
  ss_targets : c_targets a = c_targets b;
  ss_annotations : c_eval_annotations a = c_eval_annotations b;
  ss_violations : c_only_show_violations a = c_only_show_violations b;
  ss_comments : c_parse_comments a = c_parse_comments b;
  ss_symlinks : c_scan_symlink_folders a = c_scan_symlink_folders b;
  ss_format : c_format a = c_format b
}.

(** The names of the settings in the order in which they are printed. *)
Definition setting_names : list string :=
  ["quiet"; "verbose"; "print_visits"; "processes"; "ignore_incomp"; "pessimistic"; "show_tips"; "analyze_hidden";
   "exclusions"; "exclusion_regex"; "make_paths_absolute"; "backports"; "features"; "targets"; "eval_annotations";
   "only_show_violations"; "parse_comments"; "scan_symlink_folders"; "format"].

(** A text whose lines are a head, one line for each setting and a foot. *)
Definition one_line_each (text : string) (values : list string) : Prop :=
  split_char (ascii_of_nat 10) text =
  ["Config("] ++ map (fun nv => "  " +++ fst nv +++ " = " +++ snd nv) (combine setting_names values) ++ [")"] /\
  List.length values = List.length setting_names.

(** Some way of listing the elements of sets. *)
Definition lists_sets (order : list string -> list string) : Prop := forall l, Permutation (order l) l.

(** How the value of a setting is written: truth values as Python writes them, numbers in decimal, sets of
    names as sorted lists. *)
Definition truth (b : bool) : string := if b then "True" else "False".
Definition sorted_names (l set : list string) : Prop := Permutation l set /\ StronglySorted (fun a b => str_leb a b = true) l.

Inductive shows (c : config) : string -> string -> Prop :=
| sh_quiet : shows c "quiet" (truth (c_quiet c))
| sh_verbose : shows c "verbose" (z_str (c_verbose c))
| sh_visits : shows c "print_visits" (truth (c_print_visits c))
| sh_processes : shows c "processes" (z_str (c_processes c))
| sh_incomp : shows c "ignore_incomp" (truth (c_ignore_incomp c))
| sh_pessimistic : shows c "pessimistic" (truth (c_pessimistic c))
| sh_tips : shows c "show_tips" (truth (c_show_tips c))
| sh_hidden : shows c "analyze_hidden" (truth (c_analyze_hidden c))
| sh_exclusions l : sorted_names l (c_exclusions_set c) -> shows c "exclusions" (list_repr l)
| sh_regex l : sorted_names l (c_exclusion_regex_set c) -> shows c "exclusion_regex" (list_repr l)
| sh_absolute : shows c "make_paths_absolute" (truth (c_make_paths_absolute c))
| sh_annotations : shows c "eval_annotations" (truth (c_eval_annotations c))
| sh_violations : shows c "only_show_violations" (truth (c_only_show_violations c))
| sh_comments : shows c "parse_comments" (truth (c_parse_comments c))
| sh_symlinks : shows c "scan_symlink_folders" (truth (c_scan_symlink_folders c))
| sh_default : c_format c = FDefault -> shows c "format" "default"
| sh_parsable : c_format c = FParsable -> shows c "format" "parsable".
