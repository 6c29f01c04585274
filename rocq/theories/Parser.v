(** Model of /repo/vermin/parser.py: comment lines and the verdict for unparsable sources. *)
From Verif Require Import PyBase Utility RulesData Rules Config Formats.

(** Token types that matter (tokenize). *)
Inductive toktype : Set := TkString | TkComment | TkNewline | TkNl | TkOther.

(** A token of tokenize.generate_tokens: type, string, start row and column, end row. *)
Record token : Type := mkTok {
  tk_type : toktype;
  tk_string : string;
  tk_row : Z;
  tk_col : Z;
  tk_end : Z
}.

Definition tk_eqb (a b : toktype) : bool :=
  match a, b with
  | TkString, TkString | TkComment, TkComment | TkNewline, TkNewline | TkNl, TkNl | TkOther, TkOther => true
  | _, _ => false
  end.

Definition dq3 : string := String dq (String dq (chr dq)).
Definition sq3 : string := String sq (String sq (chr sq)).
Definition hash_char : ascii := "#"%char.

Definition zmem (x : Z) (l : list Z) : bool := existsb (Z.eqb x) l.
Definition zset_add (x : Z) (l : list Z) : list Z := if zmem x l then l else l ++ [x].

(** parser.py:51-53: a token starting and ending with the same triple quotes. *)
Definition triple_quoted (s : string) : bool :=
  let s := strip s in
  (startswith dq3 s && endswith dq3 s) || (startswith sq3 s && endswith sq3 s).

(** parser.py:38-43 [find_comment]: is the (stripped) segment an exclusion? *)
Definition is_novm (segment : string) : bool :=
  startswith "novermin" segment || startswith "novm" segment.

(** parser.py:65-66: some segment of the comment is an exclusion; any() stops at the first. *)
Definition comment_marks (s : string) : bool :=
  existsb (fun seg => is_novm (strip seg)) (split_char hash_char (strip (sdrop 1 s))).

(** Loop state: prev_newline, multiline_string, novermin (parser.py:28, 45-46). *)
Definition cstate : Type := (bool * option (Z * Z) * list Z)%type.

(** One iteration of parser.py:47-68. *)
Definition comment_step (s : cstate) (t : token) : cstate :=
  let '(prev, ml, nov) := s in
  let '(ml', nov') :=
    match tk_type t with
    | TkString => (if triple_quoted (tk_string t) then Some (tk_row t, tk_end t) else ml, nov)
    | TkComment =>
        let lno := match ml with
                   | Some (a, b) => if b =? tk_row t then a else tk_row t
                   | None => tk_row t
                   end in
        let alone := prev || (tk_col t =? 0) in
        (None, if comment_marks (tk_string t) then zset_add (if alone then lno + 1 else lno) nov else nov)
    | _ => (ml, nov)
    end in
  (tk_eqb (tk_type t) TkNewline || tk_eqb (tk_type t) TkNl, ml', nov').

(** parser.py:26-69 [comments] over the token stream. *)
Definition comments (toks : list token) : list Z :=
  snd (fold_left comment_step toks (false, None, [])).

(** ** TYPE_ALIAS_STMT (parser.py:11) *)

(** [\s+(.+)]: some white space, then a character that is no newline, white space given back. *)
Fixpoint ws_then_char (s : string) : bool :=
  match s with
  | String c r =>
      is_space c &&
      match r with
      | String d _ => negb (Ascii.eqb d (ascii_of_nat 10)) || ws_then_char r
      | EmptyString => false
      end
  | EmptyString => false
  end.

(** [=\s+(.+)] *)
Definition eq_rest (s : string) : bool :=
  match s with
  | String c r => Ascii.eqb c "=" && ws_then_char r
  | EmptyString => false
  end.

Definition skip_space1 (s : string) : option string :=
  match s with
  | String c r => if is_space c then Some (skip_space r) else None
  | EmptyString => None
  end.

(** After an opening bracket: at least one non-newline character, a closing bracket, white space and
    the rest, at any closing bracket that works ([.+?] backtracks). *)
Fixpoint bracket_rest (seen : bool) (s : string) : bool :=
  match s with
  | EmptyString => false
  | String c r =>
      (seen && Ascii.eqb c "]" && match skip_space1 r with Some t => eq_rest t | None => false end)
      || (negb (Ascii.eqb c (ascii_of_nat 10)) && bracket_rest true r)
  end.

(** TYPE_ALIAS_STMT.match(text) is not None. *)
Definition type_alias_match (s : string) : bool :=
  if startswith "type" s then
    match skip_space1 (sdrop 4 s) with
    | None => false
    | Some r =>
        let (w, r1) := span is_word r in
        if String.eqb w "" then false
        else match skip_space1 r1 with
             | None => false
             | Some r2 =>
                 eq_rest r2 ||
                 match r2 with String c r3 => Ascii.eqb c "[" && bracket_rest false r3 | _ => false end
             end
    end
  else false.

(** A SyntaxError as [detect] uses it; file name, line and offset already rendered by str(). *)
Record syntax_error : Type := mkSyn {
  se_text : option string;
  se_msg : string;
  se_filename : string;
  se_lineno : string;
  se_offset : string
}.

(** parser.py:77-106: the verdict and the printed lines for a SyntaxError; [major] is
    sys.version_info.major. *)
Definition syntax_verdict (major : Z) (c : config) (e : syntax_error) : mins * list string :=
  let parsable := fmt_eqb (c_format c) FParsable in
  let text := match se_text e with Some t => strip t | None => "" end in
  let text := if parsable then escape_nl text else text in
  let lmsg := lower (se_msg e) in
  let pos := se_filename e +++ ":" +++ se_lineno e +++ ":" +++ se_offset e +++ ":" in
  if contains "missing parentheses in call to 'print'" lmsg then
    ((Some (2, 0), None),
     vvprint c (pos +++ (if parsable then "2.0:!3:" else "") +++ "info: `" +++ text +++ "` requires 2.0"))
  else if String.eqb lmsg "invalid syntax" && type_alias_match text then
    ((None, Some (3, 12)),
     vvprint c (pos +++ (if parsable then "!2:3.12:" else "") +++
                "info: type alias statement `" +++ text +++ "` requires !2, 3.12"))
  else
    let m := if c_pessimistic c
             then if major =? 2 then (None, Some (0, 0)) else (Some (0, 0), None)
             else zero_mins in
    (m, vvprint c (pos +++ (if parsable then mins_str ":" m +++ ":" else "") +++
                   "error: " +++ se_msg e +++ ": " +++ text)).
