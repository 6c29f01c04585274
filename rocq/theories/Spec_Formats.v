(** Specifications for what is printed about findings (C47-C50). *)
From Verif Require Import PyBase Utility Config Spec_Base Spec_Utility Spec_Detection.

(** An optional number: nothing, or its decimal form. *)
Inductive shows_num : option Z -> string -> Prop :=
| shows_none : shows_num None ""
| shows_some z : shows_num (Some z) (z_str z).

(** [t] is [s] with every newline written as a backslash and an n. *)
Inductive escaped : string -> string -> Prop :=
| esc_nil : escaped "" ""
| esc_nl s t : escaped s t -> escaped (String (ascii_of_nat 10) s) (String (ascii_of_nat 92) (String "n" t))
| esc_char c s t : c <> ascii_of_nat 10 -> escaped s t -> escaped (String c s) (String c t).

(** A reader of parsable lines: the six fields of a line, the first five free of colons. *)
Definition fields (s : string) (p l c v2 v3 f : string) : Prop :=
  s = p +++ ":" +++ l +++ ":" +++ c +++ ":" +++ v2 +++ ":" +++ v3 +++ ":" +++ f /\
  no_char ":" p /\ no_char ":" l /\ no_char ":" c /\ no_char ":" v2 /\ no_char ":" v3.

(** The version fields: both empty without versions. *)
Definition shows_versions (m : option mins) (v2 v3 : string) : Prop :=
  match m with
  | None => v2 = "" /\ v3 = ""
  | Some m => writes 2 (fst m) v2 /\ writes 3 (snd m) v3
  end.

(** The position in front of a message, from verbosity 3 on. *)
Inductive position (verbose : Z) : option Z -> option Z -> string -> Prop :=
| pos_low l c : verbose < 3 -> position verbose l c ""
| pos_none : 3 <= verbose -> position verbose None None ""
| pos_line l : 3 <= verbose -> position verbose (Some l) None ("L" +++ z_str l +++ ": ")
| pos_col c : 3 <= verbose -> position verbose None (Some c) (" C" +++ z_str c +++ ": ")
| pos_both l c : 3 <= verbose ->
    position verbose (Some l) (Some c) ("L" +++ z_str l +++ " C" +++ z_str c +++ ": ").

(** The message is plural: as said by the caller, otherwise when its last character that is not
    whitespace is an s. *)
Definition plural_msg (msg : string) (plural : option bool) : Prop :=
  match plural with
  | Some b => b = true
  | None => exists a w, msg = a +++ "s" +++ w /\ sall is_space w = true
  end.

(** What follows the message. *)
Inductive requirement_text (msg : string) (plural : option bool) : option mins -> string -> Prop :=
| rt_none : requirement_text msg plural None ""
| rt_plural m a b : plural_msg msg plural -> writes 2 (fst m) a -> writes 3 (snd m) b ->
    requirement_text msg plural (Some m) (" require " +++ a +++ ", " +++ b)
| rt_single m a b : ~ plural_msg msg plural -> writes 2 (fst m) a -> writes 3 (snd m) b ->
    requirement_text msg plural (Some m) (" requires " +++ a +++ ", " +++ b).

(** A finding of versions [m] is above a target: its major is ruled out or needs more. *)
Definition above (m : mins) (t : ver) : Prop :=
  match (if fst t =? 2 then fst m else snd m) with None => True | Some v => ver_lt t v end.

(** Configured targets in scope: one, or one of each major, lower first. *)
Definition targets_in_scope (ts : list target) : Prop :=
  (exists b t, ts = [(b, t)] /\ (fst t = 2 \/ fst t = 3)) \/
  (exists b t b' t', ts = [(b, t); (b', t')] /\ fst t = 2 /\ fst t' = 3).

(** One line after the other, each ended by a newline; and the same indented. *)
Fixpoint lines_text (l : list string) : string :=
  match l with [] => "" | x :: r => x +++ nl +++ lines_text r end.
Fixpoint indented (l : list string) : string :=
  match l with [] => "" | x :: r => "  " +++ x +++ nl +++ indented r end.
Definition one_line (s : string) : Prop := forall a c b, s = a +++ String c b -> is_linebreak c = false.

(** What is printed about one file: its versions in a column of twelve, its path, and below them the
    lines about it, indented. *)
Inductive file_block (m : mins) (path : string) (ls : list string) : string -> Prop :=
| fb a b pad : writes 2 (fst m) a -> writes 3 (snd m) b -> all_spaces pad ->
    String.length (a +++ ", " +++ b +++ pad) = Nat.max 12 (String.length (a +++ ", " +++ b)) ->
    file_block m path ls (a +++ ", " +++ b +++ pad +++ " " +++ path +++ match ls with [] => "" | _ => nl +++ indented ls end).

(** The key by which lines are ordered when they carry positions. *)
Definition line_key (c : config) : string -> Z :=
  match c_format c with FDefault => sort_line_column | FParsable => sort_line_column_parsable end.
