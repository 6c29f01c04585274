(** Specification for config files as text (C65). *)
From Verif Require Import PyBase Utility RulesData Rules Config Ini Spec_Base Spec_Utility Spec_Config.

(** Text within one line; white space within one line. *)
Definition line_char (c : ascii) : bool := negb (Ascii.eqb c lf) && negb (Ascii.eqb c cr).
Definition one_line (s : string) : Prop := sall line_char s = true.
Definition gap (s : string) : Prop := sall (fun c => is_space c && line_char c) s = true.
(** Text that is not empty and neither begins nor ends with white space. *)
Definition solid (s : string) : Prop :=
  s <> "" /\ (forall c r, s = String c r -> is_space c = false) /\ (forall r c, s = r +++ String c "" -> is_space c = false).
Definition begins (c : ascii) (s : string) : Prop := exists r, s = String c r.

(** Lines that say nothing: comments and blank lines. *)
Definition comment_line (l : string) : Prop :=
  exists w m t, gap w /\ (m = "#" \/ m = ";") /\ one_line t /\ l = w +++ m +++ t.
Definition silent (l : string) : Prop := comment_line l \/ gap l.

(** Lines behind one with an option at indentation [n], and the lines they add to its value: those indented
    more, and blank ones. *)
Definition content (v : string) : Prop := solid v /\ one_line v /\ ~ begins "#" v /\ ~ begins ";" v.
Inductive following (n : nat) : list string -> list string -> Prop :=
| fo_end : following n [] []
| fo_comment l ls vs : comment_line l -> following n ls vs -> following n (l :: ls) vs
| fo_blank l ls vs : gap l -> following n ls vs -> following n (l :: ls) ("" :: vs)
| fo_more w v w' ls vs : gap w -> (n < String.length w)%nat -> content v -> gap w' -> following n ls vs ->
    following n ((w +++ v +++ w') :: ls) (v :: vs).

(** An option at indentation [n]: a name, "=" or ":" and a value, or a name alone. *)
Definition option_name (s : string) : Prop :=
  content s /\ ~ begins "[" s /\ sall (fun c => negb (Ascii.eqb c "=") && negb (Ascii.eqb c ":")) s = true.
Inductive entry (n : nat) : list string -> string * option string -> Prop :=
| en_value w name a d b v w' ls vs : gap w -> String.length w = n -> option_name name -> gap a -> (d = "=" \/ d = ":") -> gap b ->
    (v = "" \/ solid v) -> one_line v -> gap w' -> following n ls vs ->
    entry n ((w +++ name +++ a +++ d +++ b +++ v +++ w') :: ls) (lower name, Some (rstrip (join nl (v :: vs))))
| en_bare w name w' ls : gap w -> String.length w = n -> option_name name -> gap w' -> Forall silent ls ->
    entry n ((w +++ name +++ w') :: ls) (lower name, None).

(** A section: its name in brackets, not indented, then options, all indented alike. *)
Inductive block : list string -> string * list (string * option string) -> Prop :=
| bl n name tail pre lss es : one_line name -> name <> "" ->
    one_line tail -> sall (fun c => negb (Ascii.eqb c "]")) tail = true -> Forall silent pre -> Forall2 (entry n) lss es ->
    block (("[" +++ name +++ "]" +++ tail) :: pre ++ List.concat lss) (name, es).
Definition document (ls : list string) (secs : list (string * list (string * option string))) : Prop :=
  exists pre lss, Forall silent pre /\ Forall2 block lss secs /\ ls = pre ++ List.concat lss.
Definition distinct (secs : list (string * list (string * option string))) : Prop :=
  NoDup (map fst secs) /\ ~ In "DEFAULT" (map fst secs) /\ forall s, In s secs -> NoDup (map fst (snd s)).

(** The text of lines: each ends with "\n" or "\r\n", the last may end with the text. *)
Inductive text_of : list string -> string -> Prop :=
| tx_end : text_of [] ""
| tx_last l : l <> "" -> text_of [l] l
| tx_line l e ls t : (e = chr lf \/ e = String cr (chr lf)) -> text_of ls t -> text_of (l :: ls) (l +++ e +++ t).

(** What a parser holds, as the file says it. *)
Definition said (i : ini) : list (string * list (string * option string)) :=
  map (fun s => (fst s, map (fun o => (fst o, value_of (snd o))) (snd s))) (i_sections i).

(** "%" is written "%%". *)
Fixpoint escape (s : string) : string :=
  match s with
  | EmptyString => ""
  | String c r => if Ascii.eqb c "%" then String "%" (String "%" (escape r)) else String c (escape r)
  end.
Definition escaped (os : list (string * option string)) : list (string * option string) :=
  map (fun o => (fst o, option_map escape (snd o))) os.

(** A configuration written out: every setting on a line, every list as lines that are indented. *)
Definition flag (o : string) (b : bool) : string := o +++ " = " +++ (if b then "True" else "False").
Definition number (o : string) (n : Z) : string := o +++ " = " +++ z_str n.
Definition items (o : string) (l : list string) : list string := (o +++ " =") :: map (fun x => "  " +++ escape x) l.
Definition written (c : config) : list string :=
  ["[vermin]"; flag "quiet" (c_quiet c); number "verbose" (c_verbose c); flag "print_visits" (c_print_visits c);
   number "processes" (c_processes c); flag "ignore_incomp" (c_ignore_incomp c); flag "pessimistic" (c_pessimistic c);
   flag "show_tips" (c_show_tips c); flag "analyze_hidden" (c_analyze_hidden c);
   flag "eval_annotations" (c_eval_annotations c); flag "only_show_violations" (c_only_show_violations c);
   flag "parse_comments" (c_parse_comments c); flag "scan_symlink_folders" (c_scan_symlink_folders c);
   flag "make_paths_absolute" (c_make_paths_absolute c); "format = " +++ fmt_name (c_format c)] ++
  items "exclusions" (c_exclusions_set c) ++ items "exclusion_regex" (c_exclusion_regex_set c) ++
  items "backports" (c_backports c) ++ items "features" (c_features c) ++
  items "targets" (map (fun t : target => ver_str (snd t) +++ (if fst t then "" else "-")) (c_targets c)).
(** Configurations a file can hold. *)
Definition item (x : string) : Prop := content x /\ sall (fun c => negb (is_linebreak c)) x = true.
Definition expressible (re_ok : string -> bool) (c : config) : Prop :=
  0 <= c_verbose c /\ 0 < c_processes c /\ parsable_settings c /\
  (NoDup (c_exclusions_set c) /\ Forall item (c_exclusions_set c)) /\
  (NoDup (c_exclusion_regex_set c) /\ Forall (fun r => item r /\ re_ok r = true) (c_exclusion_regex_set c)) /\
  (NoDup (c_backports c) /\ forall b, In b (c_backports c) -> In b (map (fun e => fst (fst e)) backports_table)) /\
  (NoDup (c_features c) /\ forall f, In f (c_features c) -> In f (map fst features_table)) /\
  sorted_by_version (c_targets c) /\ Forall (fun t => in_range (snd t) /\ 0 <= snd (snd t)) (c_targets c).

(** Sections [DEFAULT] may be given as well, even several: what they say together; and the other sections. *)
Definition is_default (s : string * list (string * option string)) : bool := String.eqb (fst s) "DEFAULT".
Definition defaults_said (secs : list (string * list (string * option string))) : list (string * option string) :=
  flat_map snd (filter is_default secs).
Definition others (secs : list (string * list (string * option string))) : list (string * list (string * option string)) :=
  filter (fun s => negb (is_default s)) secs.
Definition separate (secs : list (string * list (string * option string))) : Prop := distinct (others secs) /\ NoDup (map fst (defaults_said secs)).
(** What the section [vermin] says with [es] in it and [ds] in [DEFAULT]: its own options, else those of [DEFAULT],
    else the built-in ones. Where a value says nothing, the text in [DEFAULT] takes the place of the built-in one. *)
Definition section_with (cpus : Z) (es ds : list (string * option string)) : section :=
  mkSection (sec_get (section_of cpus (es ++ ds)))
            (fun o => match assoc o ds with Some v => option_map escape v | None => assoc o (default_args cpus) end).
(** Values that say something, for the option they are given to. *)
Definition telling (o v : string) : Prop :=
  (In o ["exclusions"; "exclusion_regex"; "backports"; "features"; "targets"; "format"]) \/
  (In o ["verbose"; "processes"] /\ v <> "") \/
  In (lower v) ["1"; "yes"; "true"; "on"; "0"; "no"; "false"; "off"].
