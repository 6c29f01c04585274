(** Model of /repo/vermin/utility.py. *)
From Coq Require Import Floats.SpecFloat.
From Verif Require Import PyBase.

(** ** Names *)

(** The arguments [dotted_name] is called with: str, int, None, and lists or tuples of these.
    A float argument of [dotted_name] (utility.py:15) is left out: vermin never passes one. *)
Inductive pyname : Type :=
| NStr (s : string)
| NInt (z : Z)
| NNone
| NSeq (l : list pyname).

(** The str elements of a nested list after filtering None (utility.py:24-25); [None] when another
    element is left, on which ".".join raises TypeError (utility.py:30). *)
Fixpoint seq_strings (l : list pyname) : option (list string) :=
  match l with
  | [] => Some []
  | NStr s :: r => option_map (cons s) (seq_strings r)
  | NNone :: r => seq_strings r
  | _ :: _ => None
  end.

(** The loop of utility.py:18-29. *)
Fixpoint dotted_resolve (l : list pyname) : option (list string) :=
  match l with
  | [] => Some []
  | NStr s :: r => option_map (cons s) (dotted_resolve r)
  | NInt z :: r => option_map (cons (z_str z)) (dotted_resolve r)
  | NNone :: r => dotted_resolve r
  | NSeq l' :: r =>
      match seq_strings l', dotted_resolve r with
      | Some a, Some b => Some (a ++ b)
      | _, _ => None
      end
  end.

(** utility.py:9-30 [dotted_name]. *)
Definition dotted_name (n : pyname) : res string :=
  match n with
  | NStr s => Ok s
  | NInt z => Ok (z_str z)
  | NNone => Err TypeError
  | NSeq l => match dotted_resolve l with Some r => Ok (join "." r) | None => Err TypeError end
  end.

(** [dotted_name] on a list of str-or-None, as the source visitor uses it (utility.py:9-30). *)
Fixpoint somes {A} (l : list (option A)) : list A :=
  match l with [] => [] | Some x :: r => x :: somes r | None :: r => somes r end.
Definition dotted (l : list (option string)) : string := join "." (somes l).

(** [dotted_name((x, y))] of a version tuple (utility.py:9-30). *)
Definition ver_str (v : ver) : string := z_str (fst v) +++ "." +++ z_str (snd v).

(** utility.py:5-7 [reverse_range]. *)
Definition reverse_range {A} (l : list A) : list nat := rev (seq 0 (List.length l)).

(** ** Floats: IEEE binary64 via the standard library's SpecFloat. *)
Definition prec64 : Z := 53.
Definition emax64 : Z := 1024.
Definition f_of_Z (z : Z) : spec_float := binary_normalize prec64 emax64 z 0 false.
(** The float literal X.Y: the correctly rounded quotient (10*X+Y)/10. *)
Definition f_dec (x y : Z) : spec_float := SFdiv prec64 emax64 (f_of_Z (10 * x + y)) (f_of_Z 10).

(** [math.floor(f)] of a finite non-negative float. *)
Definition sf_floor (f : spec_float) : option Z :=
  match f with
  | S754_zero _ => Some 0
  | S754_finite s m e =>
      let z := if s then Z.neg m else Z.pos m in
      Some (if 0 <=? e then z * 2 ^ e else z / 2 ^ (- e))
  | _ => None
  end.

(** [int(f)] of a finite float: truncation towards zero. *)
Definition sf_trunc (f : spec_float) : option Z :=
  match f with
  | S754_zero _ => Some 0
  | S754_finite s m e =>
      let z := if s then Z.neg m else Z.pos m in
      Some (if 0 <=? e then z * 2 ^ e else Z.quot z (2 ^ (- e)))
  | _ => None
  end.

Definition sf_neg (f : spec_float) : bool :=
  match f with S754_finite true _ _ => true | S754_infinity true => true | _ => false end.

(** utility.py:32-37 [float_version]. NaN and infinity raise (ValueError stands for both
    ValueError and OverflowError). *)
Definition float_version (f : spec_float) : res ver :=
  if sf_neg f then Err AssertionError
  else match sf_floor f with
       | None => Err ValueError
       | Some major =>
           match sf_trunc (SFmul prec64 emax64 (SFsub prec64 emax64 f (f_of_Z major)) (f_of_Z 10)) with
           | None => Err ValueError
           | Some minor => Ok (major, minor)
           end
       end.

(** ** Requirement values *)

(** An entry of a requirement list: None, int, float or version tuple. *)
Inductive pv : Type :=
| PNone
| PInt (z : Z)
| PFloat (f : spec_float)
| PTup (v : ver).

Definition pv_is_none (p : pv) : bool := match p with PNone => true | _ => false end.

(** An argument entry of [version_strings]: a requirement value or a str
    (main.py:149-150 passes strings, main.py:136 ints). *)
Inductive vitem : Type :=
| VPv (p : pv)
| VStrI (s : string).

(** [version in (0, (0, 0))] (utility.py:96). *)
Definition is_unknown (v : vitem) : bool :=
  match v with
  | VPv (PInt z) => z =? 0
  | VPv (PFloat (S754_zero _)) => true
  | VPv (PTup t) => veqb t (0, 0)
  | _ => false
  end.

Section VersionStrings.
  (** [str(float)]: the shortest decimal that reads back; a parameter, never used by vermin. *)
  Variable float_str : spec_float -> string.

  (** One entry of [version_strings] (utility.py:92-101). *)
  Definition version_string1 (i : Z) (v : vitem) : string :=
    if is_unknown v then "~" +++ z_str (i + 2)
    else match v with
         | VPv PNone => "!" +++ z_str (i + 2)
         | VPv (PInt z) => z_str z
         | VPv (PFloat f) => float_str f
         | VPv (PTup t) => ver_str t
         | VStrI s => s
         end.

  Fixpoint version_strings_from (i : Z) (l : list vitem) : list string :=
    match l with [] => [] | v :: r => version_string1 i v :: version_strings_from (i + 1) r end.

  (** utility.py:83-102 [version_strings]. [sep] is the separator after defaulting (None and ""
      mean ", "). *)
  Definition version_strings_gen (l : list vitem) (sep : string) : res string :=
    let sep := if String.eqb sep "" then ", " else sep in
    if (List.length l =? 0)%nat then Err AssertionError
    else if existsb is_unknown l && negb (List.length l <? 3)%nat then Err AssertionError
    else Ok (join sep (version_strings_from 0 l)).

  Definition refs_t : Type := list (mins * list string).

  Fixpoint refs_get (k : mins) (l : refs_t) : option (list string) :=
    match l with
    | [] => None
    | (k', v) :: r => if mins_eqb k k' then Some v else refs_get k r
    end.
End VersionStrings.

(** No float ever reaches [version_strings] in vermin; the rendering of one is left abstract. *)
Definition no_float_str (_ : spec_float) : string := "<float>".
Definition version_strings (l : list vitem) (sep : string) : res string :=
  version_strings_gen no_float_str l sep.

Definition vitem_of (o : option ver) : vitem :=
  match o with None => VPv PNone | Some v => VPv (PTup v) end.

(** [version_strings(mins, sep)] of a requirement pair (utility.py:83-102): never fails. *)
Definition opt_ver_str (n : Z) (o : option ver) : string :=
  match o with
  | None => "!" +++ z_str n
  | Some v => if veqb v (0, 0) then "~" +++ z_str n else ver_str v
  end.
Definition mins_str (sep : string) (m : mins) : string :=
  opt_ver_str 2 (fst m) +++ sep +++ opt_ver_str 3 (snd m).

(** ** Python [repr] of strings and lists of strings (used when a list of references is formatted,
    utility.py:53-54). ASCII only. *)
Definition hex_digit (n : Z) : ascii :=
  if n <? 10 then ascii_of_N (Z.to_N (48 + n)) else ascii_of_N (Z.to_N (87 + n)).
Definition dq : ascii := ascii_of_nat 34.
Definition sq : ascii := ascii_of_nat 39.
Definition bs : ascii := ascii_of_nat 92.
Definition repr_char (q : ascii) (c : ascii) : string :=
  let n := code c in
  if Ascii.eqb c q || Ascii.eqb c bs then String bs (chr c)
  else if n =? 9 then String bs "t"
  else if n =? 10 then String bs "n"
  else if n =? 13 then String bs "r"
  else if (n <? 32) || (127 <=? n)
       then String bs (String "x" (String (hex_digit (n / 16)) (chr (hex_digit (n mod 16)))))
  else chr c.
Fixpoint repr_body (q : ascii) (s : string) : string :=
  match s with EmptyString => "" | String c r => repr_char q c +++ repr_body q r end.
Definition py_repr (s : string) : string :=
  let q := if sany (Ascii.eqb sq) s && negb (sany (Ascii.eqb dq) s) then dq else sq in
  chr q +++ repr_body q s +++ chr q.
Definition list_repr (l : list string) : string :=
  "[" +++ join ", " (map py_repr l) +++ "]".

(** utility.py:48-52 [get_ref] followed by str.format of the reference. *)
Definition ref_text (l : list string) : string :=
  match l with [x] => x | _ => list_repr l end.

(** ** Combining *)

(** The clash test of [combine_versions] (utility.py:59-61) on requirement pairs. *)
Definition clash (a b : mins) : bool :=
  match a, b with
  | (None, Some _), (Some _, None) => true
  | (Some _, None), (None, Some _) => true
  | _, _ => false
  end.

(** utility.py:42-54 [__handle_incomp_versions]: the message of the exception. *)
Definition incomp_message (a b : mins) (refs : option refs_t) : string :=
  let v1 := mins_str ", " a in
  let v2 := mins_str ", " b in
  let plain := "Versions could not be combined: " +++ v1 +++ " and " +++ v2 in
  match refs with
  | None => plain
  | Some r =>
      match refs_get a r, refs_get b r with
      | Some r1, Some r2 =>
          ref_text r1 +++ " (requires " +++ v1 +++ ") vs. " +++
          ref_text r2 +++ " (requires " +++ v2 +++ ")"
      | _, _ => plain
      end
  end.

(** One position of the loop at utility.py:74-80 on tuples and None. *)
Definition opt_max (a b : option ver) : option ver :=
  match a, b with
  | Some x, Some y => Some (vmax x y)
  | _, _ => None
  end.

(** [combine_versions] on requirement pairs of tuples and None, the form all of vermin uses
    (utility.py:56-81). *)
Definition combine2 (ignore_incomp : bool) (refs : option refs_t) (a b : mins) : res mins :=
  if negb ignore_incomp && clash a b
  then Err (InvalidVersion (incomp_message a b refs))
  else Ok (opt_max (fst a) (fst b), opt_max (snd a) (snd b)).

(** utility.py:67-72 [fixup]. *)
Definition fixup (p : pv) : res (option ver) :=
  match p with
  | PNone => Ok None
  | PInt z => Ok (Some (z, 0))
  | PFloat f => mapr Some (float_version f)
  | PTup v => Ok (Some v)
  end.

(** utility.py:56-81 [combine_versions] on arbitrary lists. The text of the exception is modelled
    in [combine2]; here it is left out, as are version_refs. *)
Definition combine_versions (ignore_incomp : bool) (l1 l2 : list pv) : res (list (option ver)) :=
  py_assert (List.length l1 =? List.length l2)%nat
  match l1, l2 with
  | [a0; a1], [b0; b1] =>
      if negb ignore_incomp &&
         ((pv_is_none a0 && negb (pv_is_none a1) && negb (pv_is_none b0) && pv_is_none b1) ||
          (negb (pv_is_none a0) && pv_is_none a1 && pv_is_none b0 && negb (pv_is_none b1)))
      then Err (InvalidVersion "Versions could not be combined")
      else
        letr x0 := fixup a0 in letr y0 := fixup b0 in
        letr x1 := fixup a1 in letr y1 := fixup b1 in
        Ok [opt_max x0 y0; opt_max x1 y1]
  | _, _ => Err AssertionError
  end.

(** ** Whitespace *)

(** utility.py:104-106 [remove_whitespace]; [extras] are the extra characters of the class. *)
Definition ws_class (extras : list ascii) (c : ascii) : bool :=
  existsb (Ascii.eqb c)
    ([ascii_of_nat 32; ascii_of_nat 9; ascii_of_nat 10; ascii_of_nat 13; ascii_of_nat 12;
      ascii_of_nat 11] ++ extras).
Definition remove_whitespace (s : string) (extras : list ascii) : string :=
  sfilter (fun c => negb (ws_class extras c)) s.

(** ** Sort keys *)

(** utility.py:108-113 [bounded_str_hash], as the exact numerator over 10^6. *)
Fixpoint hash_sum (acc : Z) (s : string) : Z :=
  match s with EmptyString => acc | String c r => hash_sum (acc + 29 * code c) r end.
Definition bounded_str_hash (s : string) : Z := hash_sum 13 s mod 1000000.

(** [\s] inside LINE_COL_REGEX skips ASCII whitespace. *)
Fixpoint skip_space (s : string) : string :=
  match s with
  | EmptyString => s
  | String c r => if is_space c then skip_space r else s
  end.

(** utility.py:115 LINE_COL_REGEX.match: line digits, optional column digits, text. *)
Definition match_line_col (s : string) : option (string * option string * string) :=
  match s with
  | String c r =>
      if Ascii.eqb c "L" then
        let (d, r1) := span_digits r in
        if String.eqb d "" then None
        else
          let col :=
            match skip_space r1 with
            | String c2 r2 =>
                if Ascii.eqb c2 "C" then
                  let (d2, r3) := span_digits r2 in
                  if String.eqb d2 "" then None
                  else match r3 with
                       | String c3 r4 => if Ascii.eqb c3 ":" then Some (d, Some d2, upto_newline r4) else None
                       | _ => None
                       end
                else None
            | _ => None
            end in
          match col with
          | Some x => Some x
          | None =>
              match r1 with
              | String c3 r4 => if Ascii.eqb c3 ":" then Some (d, None, upto_newline r4) else None
              | _ => None
              end
          end
      else None
  | _ => None
  end.

(** utility.py:117-131 [sort_line_column], as the exact numerator over 10^9.
    Simplification: Python computes the key in binary64; here it is the exact rational. *)
Definition sort_line_column (s : string) : Z :=
  match match_line_col s with
  | None => 1000 * bounded_str_hash s
  | Some (l, c, t) =>
      1000000000 * digits_val 0 l
      + match c with None => 0 | Some d => 1000000 * digits_val 0 d end
      + bounded_str_hash t
  end.

(** A colon, digits, a colon, optional digits, a colon and text at the start of a string. *)
Definition match_colons (s : string) : option (string * string * string) :=
  match s with
  | String c0 r =>
      if Ascii.eqb c0 ":" then
        let (d, r1) := span_digits r in
        if String.eqb d "" then None
        else match r1 with
             | String c1 r2 =>
                 if Ascii.eqb c1 ":" then
                   let (d2, r3) := span_digits r2 in
                   match r3 with
                   | String c2 r4 => if Ascii.eqb c2 ":" then Some (d, d2, upto_newline r4) else None
                   | _ => None
                   end
                 else None
             | _ => None
             end
      else None
  | _ => None
  end.

(** utility.py:133 LINE_COL_PARSABLE_REGEX.match: the shortest newline-free prefix before such a
    match. *)
Fixpoint match_parsable (s : string) : option (string * string * string) :=
  match match_colons s with
  | Some x => Some x
  | None =>
      match s with
      | EmptyString => None
      | String c r => if Ascii.eqb c (ascii_of_nat 10) then None else match_parsable r
      end
  end.

(** utility.py:135-146 [sort_line_column_parsable], numerator over 10^9 (exact, see above).
    [col == 0] compares a str with 0 unless empty, so it holds only for an empty column. *)
Definition sort_line_column_parsable (s : string) : Z :=
  match match_parsable s with
  | None => 1000 * bounded_str_hash s
  | Some (l, c, t) =>
      1000000000 * digits_val 0 l
      + (if String.eqb c "" then 0 else 1000000 * digits_val 0 c)
      + bounded_str_hash t
  end.

(** ** Help listings *)

(** "{:{fill}}".format(name): left aligned, padded with spaces. *)
Definition pad_right (w : nat) (s : string) : string :=
  s +++ srepeat " " (w - String.length s).

(** Lines of one pair (utility.py:151-157). [desc[0]] of an empty description raises IndexError. *)
Definition title_desc_lines (indent longest : nat) (p : string * list string) : res (list string) :=
  let title := srepeat " " indent +++ pad_right longest (fst p) +++ " - " in
  match snd p with
  | [] => Err IndexError
  | d :: ds => Ok ((title +++ d) :: map (fun l => srepeat " " (String.length title) +++ l) ds)
  end.

Fixpoint concat_res {A} (l : list (res (list A))) : res (list A) :=
  match l with
  | [] => Ok []
  | x :: r => letr a := x in letr b := concat_res r in Ok (a ++ b)
  end.

(** [len(max(titles, key=len))] (utility.py:150); max() of nothing raises ValueError. *)
Definition longest_title (titles : list string) : nat :=
  fold_left (fun n t => Nat.max n (String.length t)) titles O.

(** utility.py:148-158 [format_title_descs]. *)
Definition format_title_descs (pairs : list (string * list string)) (titles : list string)
           (indent : nat) : res string :=
  match titles with
  | [] => Err ValueError
  | _ => letr ls := concat_res (map (title_desc_lines indent (longest_title titles)) pairs) in
         Ok (join nl ls)
  end.

(** ** Targets *)

(** (exact, version) *)
Definition target : Set := (bool * ver)%type.

Definition is_dot_comma (c : ascii) : bool := Ascii.eqb c "." || Ascii.eqb c ",".

(** int() of one element, refusing negatives (utility.py:174-181). *)
Definition target_elm (s : string) : option Z :=
  match py_int s with
  | Some n => if n <? 0 then None else Some n
  | None => None
  end.

(** utility.py:162-191 [parse_target]. *)
Definition parse_target (s : string) : option target :=
  let (exact, body) := if endswith "-" s then (false, sinit s) else (true, s) in
  match split_on is_dot_comma body with
  | [a] =>
      match target_elm a with
      | Some x => if vleb (2, 0) (x, 0) && vltb (x, 0) (4, 0) then Some (exact, (x, 0)) else None
      | None => None
      end
  | [a; b] =>
      match target_elm a, target_elm b with
      | Some x, Some y => if vleb (2, 0) (x, y) && vltb (x, y) (4, 0) then Some (exact, (x, y)) else None
      | _, _ => None
      end
  | _ => None
  end.

(** [{ver[0]: ... for ... in l}] (utility.py:194-195): the last entry of a key wins. *)
Fixpoint last_by_major {A} (maj : A -> Z) (l : list A) (m : Z) : option A :=
  match l with
  | [] => None
  | x :: r =>
      match last_by_major maj r m with
      | Some y => Some y
      | None => if maj x =? m then Some x else None
      end
  end.

(** utility.py:193-208 [compare_requirements]. *)
Definition compare_requirements (reqs : list ver) (targets : list target) : bool :=
  let majors := map (fun t => fst (snd t)) targets in
  let common := filter (fun m => match last_by_major fst reqs m with Some _ => true | None => false end)
                       majors in
  match common with
  | [] => false
  | _ =>
      if existsb (fun m => negb (existsb (Z.eqb m) common)) majors then false
      else forallb (fun m =>
             match last_by_major (fun t : target => fst (snd t)) targets m,
                   last_by_major fst reqs m with
             | Some (exact, t), Some r =>
                 negb (exact && negb (veqb t r)) && negb (negb exact && vltb t r)
             | _, _ => true
             end) common
  end.
