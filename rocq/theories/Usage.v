(** Model of /repo/vermin/arguments.py:15-192 [Arguments.print_usage]. *)
From Verif Require Import PyBase Utility RulesData Rules Config UsageData.

(** formats/__init__.py:17-18 [names] and 27-28 [help_str]. *)
Definition format_names : list string := map fst formats_table.
Definition formats_str (indent : nat) : res string := format_title_descs formats_table format_names indent.

(** arguments.py:47-48: names in single quotes, with commas between. *)
Definition quoted_names (l : list string) : string := join ", " (map (fun n => "'" +++ n +++ "'") l).

(** What str.format puts in; [prog] is sys.argv[0], [cpus] is DEFAULT_PROCESSES (constants.py:4). *)
Definition piece_text (prog : string) (cpus : Z) (p : piece) : res string :=
  match p with
  | Txt s => Ok s
  | HVersion => Ok version_text
  | HProg => Ok prog
  | HNames => Ok (quoted_names config_file_names)
  | HBoundaries => Ok (quoted_names project_boundaries)
  | HCpus => Ok (z_str cpus)
  | HFormats => formats_str 10
  | HBackports => backports_str 10 backports_table
  | HFeatures => features_str 10
  end.
Fixpoint pieces_text (prog : string) (cpus : Z) (l : list piece) : res string :=
  match l with
  | [] => Ok ""
  | p :: r => letr a := piece_text prog cpus p in letr b := pieces_text prog cpus r in Ok (a +++ b)
  end.

Definition printed_when (full : bool) (c : when) : bool :=
  match c with Always => true | OnlyShort => negb full | OnlyFull => full end.

(** arguments.py:16-192 [print_usage]: the printed texts, one for each print call. *)
Fixpoint usage_texts (prog : string) (cpus : Z) (full : bool) (l : list (when * list piece)) : res (list string) :=
  match l with
  | [] => Ok []
  | (c, ps) :: r =>
      if printed_when full c
      then letr a := pieces_text prog cpus ps in letr b := usage_texts prog cpus full r in Ok (a :: b)
      else usage_texts prog cpus full r
  end.
Definition print_usage (prog : string) (cpus : Z) (full : bool) : res (list string) :=
  usage_texts prog cpus full usage_prints.
