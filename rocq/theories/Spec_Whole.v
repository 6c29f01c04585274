(** Specification for the whole output of a run in the default format (C73). *)
From Coq Require Import Sorting.Sorted.
From Verif Require Import PyBase Utility Config Processor Spec_Base Spec_Utility Spec_Detection Spec_Formats Spec_Main Spec_Targets Spec_Messages Spec_Tips.

(** A line that is there if and only if something is so, and what it then is. *)
Inductive shown (P : string -> Prop) : list string -> Prop :=
| shown_not : (forall l, ~ P l) -> shown P []
| shown_line l : P l -> (forall l', P l' -> l' = l) -> shown P [l].

(** Texts with commas between. *)
Inductive listed {A : Type} (W : A -> string -> Prop) : list A -> string -> Prop :=
| ld_one x t : W x t -> listed W [x] t
| ld_more x t l r : W x t -> listed W l r -> listed W (x :: l) (t +++ ", " +++ r).

Definition version_text (v : ver) (t : string) : Prop := t = z_str (fst v) +++ "." +++ z_str (snd v).
(** A target: a version, with a minus if lower ones are fine. *)
Inductive target_written : target -> string -> Prop :=
| tw_exact v t : version_text v t -> target_written (true, v) t
| tw_minimum v t : version_text v t -> target_written (false, v) (t +++ "-").

(** ** About each file *)

(** A text cut behind its line ends; a carriage return and a newline are one. *)
Inductive broken : string -> list string -> Prop :=
| bk_nil : broken "" []
| bk_last l : l <> "" -> one_line l -> broken l [l]
| bk_line l x rest ps : one_line l -> is_linebreak x = true ->
    (x = ascii_of_nat 13 -> forall r, rest <> String (ascii_of_nat 10) r) -> broken rest ps ->
    broken (l +++ String x rest) ((l +++ String x "") :: ps)
| bk_both l rest ps : one_line l -> broken rest ps ->
    broken (l +++ String (ascii_of_nat 13) (String (ascii_of_nat 10) rest)) ((l +++ String (ascii_of_nat 13) nl) :: ps).
Fixpoint moved_in (ps : list string) : string := match ps with [] => "" | p :: r => "  " +++ p +++ moved_in r end.

(** The versions in a column of twelve, the path, and below them what was found, moved in, and an empty line. *)
Inductive file_text (m : mins) (path text : string) : string -> Prop :=
| ft_plain a b pad : text = "" -> writes 2 (fst m) a -> writes 3 (snd m) b -> all_spaces pad ->
    String.length (a +++ ", " +++ b +++ pad) = Nat.max 12 (String.length (a +++ ", " +++ b)) ->
    file_text m path text (a +++ ", " +++ b +++ pad +++ " " +++ path +++ nl)
| ft_found a b pad ps : text <> "" -> writes 2 (fst m) a -> writes 3 (snd m) b -> all_spaces pad ->
    String.length (a +++ ", " +++ b +++ pad) = Nat.max 12 (String.length (a +++ ", " +++ b)) -> broken text ps ->
    file_text m path text (a +++ ", " +++ b +++ pad +++ " " +++ path +++ nl +++ moved_in ps +++
      (if endswith nl text then "" else nl) +++ nl).

(** Files are shown from verbosity 1 on and, if only violations are asked for, those with any. *)
Definition file_shown (c : config) (text : string) : Prop :=
  c_quiet c = false /\ 1 <= c_verbose c /\ (c_only_show_violations c = true -> text <> "").
Inductive result_text (c : config) (r : presult) (m : mins) : string -> Prop :=
| rt_not : ~ file_shown c (r_text r) -> result_text c r m ""
| rt_shown t : file_shown c (r_text r) -> file_text m (r_path r) (r_text r) t -> result_text c r m t.

(** The note on a file that contradicts itself or others. *)
Inductive incompatible_text (c : config) (r : presult) : string -> Prop :=
| it_not : c_ignore_incomp c = true \/ c_quiet c = true -> incompatible_text c r ""
| it_plain : c_ignore_incomp c = false -> c_quiet c = false -> r_text r = "" ->
    incompatible_text c r ("File with incompatible versions: " +++ r_path r +++ nl)
| it_found : c_ignore_incomp c = false -> c_quiet c = false -> r_text r <> "" ->
    incompatible_text c r ("File with incompatible versions: " +++ r_path r +++ nl +++ "  " +++ r_text r +++ nl).

(** What is printed about files in order; [j] is what was combined before. *)
Inductive sections (c : config) : mins -> list (option presult) -> string -> Prop :=
| sec_done j : sections c j [] ""
| sec_other j rs t : sections c j rs t -> sections c j (None :: rs) t
| sec_contradiction j r rs u t : r_mins r = MNone -> incompatible_text c r u -> sections c j rs t -> sections c j (Some r :: rs) (u +++ t)
| sec_fits j r m j' rs u t : r_mins r = MVers m -> c_ignore_incomp c = true \/ ~ clashing j m -> is_mins_join j m j' ->
    result_text c r m u -> sections c j' rs t -> sections c j (Some r :: rs) (u +++ t)
| sec_clashes j r m rs u v t : r_mins r = MVers m -> c_ignore_incomp c = false -> clashing j m ->
    result_text c r m u -> incompatible_text c r v -> sections c j rs t -> sections c j (Some r :: rs) (u +++ v +++ t).

(** ** Before and after *)

(** The config file used without being asked for, and the work to come from verbosity 1 on. *)
Definition found_config (det : option string) (args : list string) (f : string) : Prop :=
  det = Some f /\ no_file_named args /\ ~ In "--no-config-file" args.
Definition working (n : nat) (cpus : Z) : string :=
  "Analyzing" +++ match n with 0%nat | 1%nat => "" | _ => " " +++ nat_str n +++ " files" end +++ " using " +++ z_str cpus +++ " processes..".
Definition front_lines (c : config) (det : option string) (args : list string) (n : nat) (lines : list string) : Prop :=
  exists a b d, lines = a ++ b ++ d /\
    shown (fun l => c_quiet c = false /\ exists f, l = "Using detected config: " +++ f /\ found_config det args f) a /\
    shown (fun l => c_quiet c = false /\ 1 <= c_verbose c /\ l = "Detecting python files..") b /\
    shown (fun l => c_quiet c = false /\ 1 <= c_verbose c /\ l = working n (c_processes c)) d.

(** The tips, with an empty line before them if nothing stands between them and the files, and one before the versions. *)
Definition gap (c : config) (m : mins) : Prop :=
  m = (None, None) \/ (m = (Some (0, 0), Some (0, 0)) /\ 1 <= c_verbose c) \/ (m <> (None, None) /\ c_verbose c = 1).
Definition tips_text (c : config) (s : summary) (lines : list string) : Prop :=
  exists a b n before after,
    shown (fun l => l = annotations_tip /\ m_maybe s = true /\ c_eval_annotations c = false) a /\
    shown (fun l => exists ns, l = backports_tip ns /\ ns <> [] /\ StronglySorted str_lt ns /\
                               forall b, In b ns <-> In b (m_bps s) /\ ~ enabled c b) b /\
    shown (fun l => l = comments_tip /\ m_novm s = false /\ c_parse_comments c = true) n /\
    shown (fun l => l = "" /\ gap c (m_mins s)) before /\ shown (fun l => l = "" /\ m_mins s <> (None, None)) after /\
    ((c_show_tips c = false \/ a ++ b ++ n = []) /\ lines = [] \/
     c_show_tips c = true /\ a ++ b ++ n <> [] /\
     lines = before ++ ["Tips:"] ++ a ++ b ++ n ++ ["(disable using: --no-tips)"] ++ after).

Definition report_text (c : config) (versions : bool) (s : summary) (lines : list string) : Prop :=
  exists a tips m u i v f, lines = a ++ tips ++ m ++ u ++ i ++ v ++ f /\
    shown (fun l => l = "Note: Some files had incompatible versions so the results might not be correct!" /\
                    m_incomp s = true /\ c_ignore_incomp c = false) a /\
    tips_text c s tips /\
    shown (fun l => exists t, l = "Minimum required versions: " +++ t /\ shows_minimum (m_mins s) t) m /\
    shown (fun l => exists t, l = "Note: Not enough evidence to conclude it won't work with Python " +++ t +++ "." /\ shows_unknown (m_mins s) t) u /\
    shown (fun l => exists t, l = "Incompatible versions:     " +++ t /\ shows_incompatible (m_mins s) t /\
                              (c_ignore_incomp c = false \/ m_mins s = (None, None))) i /\
    shown (fun l => exists t, l = "Version range:             " +++ t /\ versions = true /\ listed version_text (m_unique s) t) v /\
    shown (fun l => exists t, l = "Target versions not met:   " +++ t /\ ~ passes c (m_mins s) /\ listed target_written (c_targets c) t) f.
