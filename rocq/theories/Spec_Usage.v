(** What the help text promises (C70): reading it line by line. *)
From Verif Require Import PyBase Utility RulesData Rules Config Paths Formats Arguments Processor UsageData Usage Spec_Base Spec_Utility Spec_Args.

Definition newline : ascii := ascii_of_nat 10.
(** A text on one line. *)
Definition no_newline (s : string) : Prop := sall (fun c => negb (Ascii.eqb newline c)) s = true.
Definition blanks (n : nat) : string := srepeat " " n.

(** The lines of the help text, for a program called [prog] on a machine with [cpus] cores. *)
Definition help_lines (prog : string) (cpus : Z) (ls : list string) : Prop :=
  exists l, print_usage prog cpus true = Ok l /\ ls = split_char newline (print_lines l).

(** The lines after the first one that is [t]. *)
Fixpoint lines_after (t : string) (ls : list string) : list string :=
  match ls with [] => [] | l :: r => if String.eqb l t then r else lines_after t r end.
(** The lines up to the first empty one. *)
Fixpoint lines_to_blank (ls : list string) : list string :=
  match ls with [] => [] | l :: r => if String.eqb l "" then [] else l :: lines_to_blank r end.
(** The text up to the first occurrence of [t]. *)
Fixpoint before (t s : string) : string :=
  if startswith t s then "" else match s with "" => "" | String c r => String c (before t r) end.
Definition without (p s : string) : string := if startswith p s then sdrop (String.length p) s else s.
(** The parts between occurrences of [t], which is not empty; [n] is large enough if it is the length. *)
Fixpoint parts (n : nat) (t s : string) : list string :=
  match n with
  | O => [s]
  | S k => if String.eqb (before t s) s then [s] else before t s :: parts k t (sdrop (String.length (before t s) + String.length t) s)
  end.

(** ** Options *)

(** The lines that introduce options: indented by two, after "Options:". *)
Definition option_lines (ls : list string) : list string :=
  filter (fun l => startswith "  -" l || startswith "  [-" l) (lines_after "Options:" ls).
(** The forms such a line gives: what stands before a wide gap, "|" between. *)
Definition option_forms (l : string) : list string := let h := before "  " (sdrop 2 l) in parts (String.length h) " | " h.
(** The word of a form, without brackets, operand and remark. *)
Definition form_word (f : string) : string := before "]" (before " " (without "[" f)).
Definition marked_default (l : string) : bool := endswith " (default)" l.
Definition takes_operand (f : string) : bool := contains " <" f.

(** [a] is written as the word says: "-v.." stands for any number of v, what follows "=" for any value. *)
Definition as_written (w a : string) : Prop :=
  (w = "-v.." /\ exists n, (0 < n)%nat /\ a = String "-" (vs n)) \/
  (exists p x y, w = p +++ "=" +++ x /\ a = p +++ "=" +++ y) \/
  (w <> "-v.." /\ no_eq w /\ a = w).
Definition documented (ls : list string) (a : string) : Prop :=
  exists l f, In l (option_lines ls) /\ In f (option_forms l) /\ as_written (form_word f) a.
Definition default_option (ls : list string) (o : string) : Prop :=
  exists l f, In l (option_lines ls) /\ marked_default l = true /\ In f (option_forms l) /\ form_word f = o.
Definition unmarked_option (ls : list string) (o : string) : Prop :=
  exists l f, In l (option_lines ls) /\ marked_default l = false /\ In f (option_forms l) /\ form_word f = o.

(** ** Listings *)

(** The names listed under the line [t], up to an empty line: they are indented by ten. *)
Definition listed (t : string) (ls : list string) : list string :=
  map (fun l => before " " (sdrop 10 l))
      (filter (fun l => startswith (blanks 10) l && negb (startswith (blanks 11) l)) (lines_to_blank (lines_after t ls))).

(** The items of the first list that say [t]. *)
Definition saying (t : string) (ls : list string) : list string := filter (fun l => startswith "  - " l && contains t l) ls.
(** The names in single quotes in a text. *)
Fixpoint odd_parts (l : list string) : list string := match l with _ :: x :: r => x :: odd_parts r | _ => [] end.
Definition quoted (s : string) : list string := odd_parts (split_char "'"%char s).

(** ** Outcomes of command lines *)

(** An option with its operand is accepted, and leaves no file or folder. *)
Definition takes (x : res (config * parse_out)) : Prop := exists c v pr, x = Ok (c, OPaths [] v pr).
(** The same outcome but for the files and folders. *)
Definition same_but_paths (x y : res (config * parse_out)) : Prop :=
  match x, y with
  | Ok (c, OPaths _ v pr), Ok (c', OPaths _ v' pr') => c = c' /\ v = v' /\ pr = pr'
  | _, _ => x = y
  end.
