(** Model of what config.py:134-160, 163-180 and 237-246 do with the text of a file through the standard
    library's configparser (as of Python 3.11): [ConfigParser(args, allow_no_value=True)] to read a config
    file, [ConfigParser()] to look for one. Text is ASCII; [parse_data] reads its text without [universal]. *)
From Verif Require Import PyBase Utility RulesData Rules Config.

Definition lf : ascii := ascii_of_nat 10.
Definition cr : ascii := ascii_of_nat 13.

(** A file opened in text mode (config.py:92, 241): "\r\n" and "\r" are read as "\n". *)
Fixpoint universal (s : string) : string :=
  match s with
  | EmptyString => EmptyString
  | String c r =>
      if Ascii.eqb c cr then
        String lf (match r with
                   | String d r' => if Ascii.eqb d lf then universal r' else universal r
                   | EmptyString => EmptyString
                   end)
      else String c (universal r)
  end.

(** config.py:146-151: the lines [readline] yields, each with its newline. *)
Fixpoint readlines (s : string) : list string :=
  match s with
  | EmptyString => []
  | String c r =>
      if Ascii.eqb c lf then chr c :: readlines r
      else match readlines r with [] => [chr c] | l :: ls => String c l :: ls end
  end.

(** A value while reading: text given by the program, lines of the file, or a key without value. *)
Inductive ival : Set := IText (s : string) | ILines (l : list string) | INone.
Definition options : Set := list (string * ival).

(** configparser.py [_sections], [_defaults]. *)
Record ini : Set := mkIni { i_sections : list (string * options); i_defaults : options }.

(** configparser.py:1084-1098: the dict a section name stands for, [_defaults] for DEFAULT. *)
Definition cursect (i : ini) (n : string) : options :=
  match assoc n (i_sections i) with Some o => o | None => i_defaults i end.
Definition w_cursect (i : ini) (n : string) (o : options) : ini :=
  match assoc n (i_sections i) with
  | Some _ => mkIni (dict_set n o (i_sections i)) (i_defaults i)
  | None => mkIni (i_sections i) o
  end.

(** configparser.py:574-578 SECTCRE.match: the text between "[" and the last "]", not empty. *)
Fixpoint before_last (c : ascii) (s : string) : option string :=
  match s with
  | EmptyString => None
  | String d r =>
      match before_last c r with
      | Some t => Some (String d t)
      | None => if Ascii.eqb d c then Some "" else None
      end
  end.
Definition section_header (s : string) : option string :=
  match s with
  | String c r =>
      if Ascii.eqb c "[" then
        match before_last "]" r with
        | Some h => if String.eqb h "" then None else Some h
        | None => None
        end
      else None
  | EmptyString => None
  end.

(** configparser.py:579-595 OPTCRE and OPTCRE_NV, matched against a text without white space at its ends: up
    to the first "=" or ":", and what is behind it. *)
Definition is_delim (c : ascii) : bool := Ascii.eqb c "=" || Ascii.eqb c ":".
Fixpoint split_delim (s : string) : option (string * string) :=
  match s with
  | EmptyString => None
  | String c r =>
      if is_delim c then Some ("", r)
      else match split_delim r with Some (a, b) => Some (String c a, b) | None => None end
  end.
Definition option_line (no_value : bool) (s : string) : option (string * option string) :=
  match split_delim s with
  | Some (a, b) => Some (rstrip a, Some (strip b))
  | None => if no_value then Some (s, None) else None
  end.

(** configparser.py:1052-1055 *)
Definition is_comment (s : string) : bool :=
  match s with String c _ => Ascii.eqb c "#" || Ascii.eqb c ";" | EmptyString => false end.
(** configparser.py:1073-1074: where the first character that is no white space is. *)
Fixpoint indent_of (s : string) : nat :=
  match s with String c r => if is_space c then S (indent_of r) else O | EmptyString => O end.

(** ParsingError and its subclasses; DuplicateSectionError, DuplicateOptionError; AttributeError. *)
Inductive ini_error : Set := EParsing | EDuplicate | EAttribute.

(** configparser.py:1029-1035: what is kept from line to line. [elements_added] holds every section read, as
    the parser is a fresh one, so only the options are kept. *)
Record rstate : Set := mkR {
  r_ini : ini; r_sect : option string; r_opt : string; r_indent : nat;
  r_added : list (string * string); r_bad : bool }.

Definition pair_eqb (a b : string * string) : bool := String.eqb (fst a) (fst b) && String.eqb (snd a) (snd b).

(** configparser.py:1037-1130: one line. *)
Definition read_line (no_value : bool) (st : rstate) (line : string) : rstate + ini_error :=
  let s := strip line in
  let in_option := match r_sect st with Some n => if String.eqb (r_opt st) "" then None else Some n | None => None end in
  if is_comment s then inl st
  else if String.eqb s "" then
    match in_option with
    | Some n =>
        match assoc (r_opt st) (cursect (r_ini st) n) with
        | Some (ILines l) =>
            inl (mkR (w_cursect (r_ini st) n (dict_set (r_opt st) (ILines (l ++ [""])) (cursect (r_ini st) n)))
                     (r_sect st) (r_opt st) (r_indent st) (r_added st) (r_bad st))
        | _ => inl st
        end
    | None => inl st
    end
  else
    let fresh :=
      let ind := indent_of line in
      match section_header s with
      | Some h =>
          if has_key h (i_sections (r_ini st)) then inr EDuplicate
          else if String.eqb h "DEFAULT" then inl (mkR (r_ini st) (Some h) "" ind (r_added st) (r_bad st))
          else inl (mkR (mkIni (i_sections (r_ini st) ++ [(h, [])]) (i_defaults (r_ini st)))
                        (Some h) "" ind (r_added st) (r_bad st))
      | None =>
          match r_sect st with
          | None => inr EParsing
          | Some n =>
              match option_line no_value s with
              | Some (o, v) =>
                  let o' := lower (rstrip o) in
                  if existsb (pair_eqb (n, o')) (r_added st) then inr EDuplicate
                  else inl (mkR (w_cursect (r_ini st) n
                                   (dict_set o' (match v with Some v => ILines [v] | None => INone end) (cursect (r_ini st) n)))
                                (Some n) o' ind ((n, o') :: r_added st) (r_bad st || String.eqb o ""))
              | None => inl (mkR (r_ini st) (Some n) (r_opt st) ind (r_added st) true)
              end
          end
      end in
    match in_option with
    | Some n =>
        if (r_indent st <? indent_of line)%nat then
          match assoc (r_opt st) (cursect (r_ini st) n) with
          | Some (ILines l) =>
              inl (mkR (w_cursect (r_ini st) n (dict_set (r_opt st) (ILines (l ++ [s])) (cursect (r_ini st) n)))
                       (r_sect st) (r_opt st) (r_indent st) (r_added st) (r_bad st))
          | _ => inr EAttribute
          end
        else fresh
    | None => fresh
    end.

Fixpoint read_lines (no_value : bool) (st : rstate) (l : list string) : rstate + ini_error :=
  match l with
  | [] => inl st
  | x :: r => match read_line no_value st x with inl st' => read_lines no_value st' r | inr e => inr e end
  end.

(** configparser.py:1029-1134 [_read]. *)
Definition ini_read (no_value : bool) (defaults : options) (lines : list string) : ini + ini_error :=
  match read_lines no_value (mkR (mkIni [] defaults) None "" 0 [] false) lines with
  | inl st => if r_bad st then inr EParsing else inl (r_ini st)
  | inr e => inr e
  end.

(** configparser.py:1136-1146 [_join_multiline_values]. *)
Definition value_of (v : ival) : option string :=
  match v with IText s => Some s | ILines l => Some (rstrip (join nl l)) | INone => None end.

(** ** Interpolation (configparser.py:377-446, BasicInterpolation) *)

(** _KEYCRE from behind "%(": the name, and what is behind ")s". *)
Fixpoint key_ref (s : string) : option (string * string) :=
  match s with
  | EmptyString => None
  | String c r =>
      if Ascii.eqb c ")" then
        match r with String d r' => if Ascii.eqb d "s" then Some ("", r') else None | EmptyString => None end
      else match key_ref r with Some (k, t) => Some (String c k, t) | None => None end
  end.

(** configparser.py:407-446 [_interpolate_some]; [d] is how much deeper it may go, [map] the options of the
    section and the defaults. [fuel] bounds the length of the text and is never used up. *)
Fixpoint interpolate (map : string -> option (option string)) (d : nat) : nat -> string -> res string :=
  match d with
  | O => fun _ _ => Err ConfigError
  | S d' =>
      fix go (fuel : nat) (rest : string) : res string :=
        match fuel with
        | O => Err ConfigError
        | S fuel =>
            match rest with
            | EmptyString => Ok ""
            | String c r =>
                if negb (Ascii.eqb c "%") then mapr (String c) (go fuel r)
                else match r with
                     | String d r' =>
                         if Ascii.eqb d "%" then mapr (String "%") (go fuel r')
                         else if Ascii.eqb d "(" then
                           match key_ref r' with
                           | Some (k, r'') =>
                               if String.eqb k "" then Err ConfigError
                               else match map (lower k) with
                                    | None => Err ConfigError
                                    | Some None => Err TypeError
                                    | Some (Some v) =>
                                        letr a := (if sany (Ascii.eqb "%") v then interpolate map d' (S (String.length v)) v else Ok v) in
                                        mapr (append a) (go fuel r'')
                                    end
                           | None => Err ConfigError
                           end
                         else Err ConfigError
                     | EmptyString => Err ConfigError
                     end
            end
        end
  end.

(** configparser.py:781-816 [get]: from the section, else from the defaults. *)
Definition lookup (i : ini) (n : string) (o : string) : option (option string) :=
  match assoc n (i_sections i) with
  | None => None
  | Some os => match assoc o os with
               | Some v => Some (value_of v)
               | None => option_map value_of (assoc o (i_defaults i))
               end
  end.
Definition ini_get (i : ini) (n : string) (o : string) : res (option string) :=
  match lookup i n (lower o) with
  | None => Err ConfigError
  | Some None => Ok None
  | Some (Some v) => mapr Some (interpolate (lookup i n) 10 (S (String.length v)) v)
  end.

(** The section [vermin] as config.py:163-226 sees it. *)
Definition vermin_view (i : ini) : section :=
  mkSection (ini_get i "vermin")
            (fun o => match assoc o (i_defaults i) with Some v => value_of v | None => None end).

(** config.py:134-160: the text of a file, given the defaults of config.py:112-133. *)
Definition cfg_of_text (cpus : Z) (text : string) : cfg_file :=
  match ini_read true (map (fun p => (fst p, IText (snd p))) (default_args cpus)) (readlines (universal text)) with
  | inr _ => CfgUnparsable
  | inl i => if has_key "vermin" (i_sections i) then CfgSection (vermin_view i) else CfgNoSection
  end.

(** config.py:237-246: a candidate that exists and can be decoded. *)
Definition probe_of_text (text : string) : probe :=
  match ini_read false [] (readlines (universal text)) with
  | inr EParsing => PrParsingError
  | inr _ => PrOtherError
  | inl i => if has_key "vermin" (i_sections i) then PrSection else PrNoSection
  end.

(** config.py:236-247: the candidates of folders, given the texts of the files that exist. *)
Definition text_candidate (files : list string -> string -> option string) (folder : list string) (name : string) : probe :=
  match files folder name with None => PrAbsent | Some t => probe_of_text t end.
