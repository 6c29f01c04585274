(** Specifications for comments and unparsable sources (C32, C33). *)
From Verif Require Import PyBase Utility RulesData Rules Config Formats Parser Spec_Base Spec_Detection.

Definition blanks (s : string) : Prop := forall a x b, s = a +++ String x b -> is_space x = true.

(** An exclusion: "novm" or "novermin" right after a hash sign, blanks in between allowed. *)
Definition marks (comment : string) : Prop :=
  exists p ws w v, comment = p +++ "#" +++ ws +++ w +++ v /\ blanks ws /\ (w = "novm" \/ w = "novermin").

(** A string token delimited by three quotes, without a prefix. *)
Definition triple (s : string) : Prop :=
  exists q, (q = dq3 \/ q = sq3) /\ (exists a, strip s = q +++ a) /\ (exists b, strip s = b +++ q).

(** The triple-quoted string a comment follows: the last one before it, with no comment between. *)
Definition follows (pre : list token) (s : token) : Prop :=
  exists p1 p2, pre = p1 ++ s :: p2 /\ tk_type s = TkString /\ triple (tk_string s) /\
    forall t, In t p2 -> tk_type t <> TkComment /\ ~ (tk_type t = TkString /\ triple (tk_string t)).

(** Nothing but the comment since the line began. *)
Definition alone (pre : list token) (t : token) : Prop :=
  tk_col t = 0 \/ exists p x, pre = p ++ [x] /\ (tk_type x = TkNewline \/ tk_type x = TkNl).

(** The line a comment belongs to. *)
Definition line_of (pre : list token) (t : token) (n : Z) : Prop :=
  (exists s, follows pre s /\ tk_end s = tk_row t /\ n = tk_row s) \/
  ((forall s, follows pre s -> tk_end s <> tk_row t) /\ n = tk_row t).

Definition excluded_line (toks : list token) (n : Z) : Prop :=
  exists pre t post l, toks = pre ++ t :: post /\ tk_type t = TkComment /\ marks (tk_string t) /\
    line_of pre t l /\ ((alone pre t /\ n = l + 1) \/ (~ alone pre t /\ n = l)).

(** Tokenize's comments begin with a hash sign. *)
Definition comment_tokens (toks : list token) : Prop :=
  forall t, In t toks -> tk_type t = TkComment -> begins "#" (tk_string t).

(** type NAME [PARAMS] = VALUE, at the beginning of the text. *)
Definition space1 (s : string) : Prop := s <> "" /\ blanks s.
Definition type_alias (text : string) : Prop :=
  exists w1 name w2 params w3 ch rest,
    text = "type" +++ w1 +++ name +++ w2 +++ params +++ "=" +++ w3 +++ String ch rest /\
    space1 w1 /\ space1 w2 /\ space1 w3 /\ ch <> ascii_of_nat 10 /\
    name <> "" /\ (forall a x b, name = a +++ String x b -> is_word x = true) /\
    (params = "" \/ exists body w, params = "[" +++ body +++ "]" +++ w /\ space1 w /\ body <> "" /\
                                   no_char (ascii_of_nat 10) body).

(** The text of the error as it is looked at. *)
Definition error_text (c : config) (e : syntax_error) : string :=
  let t := match se_text e with Some t => strip t | None => "" end in
  match c_format c with FParsable => escape_nl t | FDefault => t end.

Definition print_statement (e : syntax_error) : Prop :=
  occurs "missing parentheses in call to 'print'" (lower (se_msg e)).

(** The documented verdict. *)
Definition verdict (major : Z) (c : config) (e : syntax_error) (m : mins) : Prop :=
  (print_statement e /\ m = (Some (2, 0), None)) \/
  (~ print_statement e /\ lower (se_msg e) = "invalid syntax" /\ type_alias (error_text c e) /\
   m = (None, Some (3, 12))) \/
  (~ print_statement e /\ ~ (lower (se_msg e) = "invalid syntax" /\ type_alias (error_text c e)) /\
   ((c_pessimistic c = false /\ m = (Some (0, 0), Some (0, 0))) \/
    (c_pessimistic c = true /\ major = 2 /\ m = (None, Some (0, 0))) \/
    (c_pessimistic c = true /\ major <> 2 /\ m = (Some (0, 0), None)))).
