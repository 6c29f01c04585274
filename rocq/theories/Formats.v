(** Model of /repo/vermin/formats/default_format.py, parsable_format.py and printing.py. *)
From Verif Require Import PyBase Utility RulesData Rules Config.

(** printing.py:1-3 [nprint]: what is printed. *)
Definition nprint (c : config) (msg : string) : list string := if c_quiet c then [] else [msg].

(** printing.py:5-7 [verbose_print]. *)
Definition verbose_print (level : Z) (c : config) (msg : string) : list string :=
  if (level <=? c_verbose c) && negb (c_quiet c) then [msg] else [].

(** printing.py:9-13 [vprint], [vvprint]. *)
Definition vprint (c : config) (msg : string) : list string := verbose_print 1 c msg.
Definition vvprint (c : config) (msg : string) : list string := verbose_print 2 c msg.

(** default_format.py:9-11, parsable_format.py:16-18 [skip_output_line]. *)
Definition skip_output_line (c : config) : bool :=
  match c_format c with FDefault => c_quiet c | FParsable => false end.

Definition opt_str (pre : string) (o : option Z) : string :=
  match o with None => "" | Some z => pre +++ z_str z end.

(** default_format.py:13-26 [format_output_line]. [plural = None] means: decided by the message. *)
Definition default_line (verbose : Z) (msg : string) (line col : option Z) (versions : option mins)
           (plural : option bool) : string :=
  let plural := match plural with Some b => b | None => endswith "s" (strip msg) end in
  let line := if verbose <? 3 then None else line in
  let col := if verbose <? 3 then None else col in
  let lc := opt_str "L" line +++ opt_str " C" col in
  let lc := if String.eqb lc "" then lc else lc +++ ": " in
  let vers := match versions with
              | None => ""
              | Some m => " require" +++ (if plural then "" else "s") +++ " " +++ mins_str ", " m
              end in
  lc +++ msg +++ vers.

(** The parsable form of a newline: a backslash and an n (parsable_format.py:24). *)
Definition escape_nl (s : string) : string := replace_char (ascii_of_nat 10) (String bs "n") s.

(** parsable_format.py:20-27 [format_output_line]; a None message is "". *)
Definition parsable_line (msg path : string) (line col : option Z) (versions : option mins) : string :=
  let vers := match versions with None => ":" | Some m => mins_str ":" m end in
  path +++ ":" +++ opt_str "" line +++ ":" +++ opt_str "" col +++ ":" +++ vers +++ ":" +++ escape_nl msg.

Definition format_output_line (c : config) (msg path : string) (line col : option Z)
           (versions : option mins) (plural : option bool) : string :=
  match c_format c with
  | FDefault => default_line (c_verbose c) msg line col versions plural
  | FParsable => parsable_line msg path line col versions
  end.

(** default_format.py:28-38 [output_result]: what is printed for one file. *)
Definition default_result (c : config) (m : mins) (path text : string) : list string :=
  let subtext :=
    if String.eqb text "" then ""
    else let s := nl +++ "  " +++ join "  " (splitlines_keep text) in
         if endswith nl s then s else s +++ nl in
  vprint c (pad_right 12 (mins_str ", " m) +++ " " +++ path +++ subtext).

(** parsable_format.py:29-35 [output_result], as the characters written to stdout. *)
Definition parsable_result (m : mins) (path text : string) : string :=
  text +++ parsable_line "" path None None (Some m) +++ nl.

(** Sort by a key, stable. *)
Definition by_key (key : string -> Z) (a b : string) : bool := key a <=? key b.

(** default_format.py:40-46, parsable_format.py:37-39 [sort_output_lines]. *)
Definition sort_output_lines (c : config) (lines : list string) : list string :=
  match c_format c with
  | FDefault =>
      if (2 <? c_verbose c) && negb (c_print_visits c)
      then isort (by_key sort_line_column) lines
      else isort str_leb lines
  | FParsable => isort (by_key sort_line_column_parsable) lines
  end.
