(** Python base notions used by every model file: exceptions as values, ASCII strings,
    sets as duplicate-free lists, dicts as association lists, sorting.
    These model CPython built-ins (trusted reading of the language), not files of /repo. *)
From Coq Require Export List ZArith Bool String Ascii Lia.
From Coq Require Import DecimalString DecimalZ.
Export ListNotations.
Open Scope string_scope.
Open Scope list_scope.
Open Scope Z_scope.

(** ** Exceptions *)

(** Python exception classes that the modelled code can raise. [InvalidVersion] is
    vermin/utility.py:39-40. *)
Inductive exn : Set :=
| AssertionError | AttributeError | TypeError | IndexError | KeyError | ValueError
| OSError | ReError | ConfigError | RuntimeError
| InvalidVersion (msg : string)
| SystemExit (code : Z)
| KeyboardInterrupt.

Inductive res (A : Type) : Type :=
| Ok (a : A)
| Err (e : exn).
Arguments Ok {A} a.
Arguments Err {A} e.

Definition bindr {A B} (m : res A) (f : A -> res B) : res B :=
  match m with Ok a => f a | Err e => Err e end.

Definition mapr {A B} (f : A -> B) (m : res A) : res B :=
  match m with Ok a => Ok (f a) | Err e => Err e end.

(** [assert b] of Python. *)
Definition py_assert {A} (b : bool) (m : res A) : res A :=
  if b then m else Err AssertionError.

(** ** Strings (ASCII) *)

(** A one-character string. *)
Definition chr (c : ascii) : string := String c EmptyString.

(** The newline string. *)
Definition nl : string := chr (ascii_of_nat 10).

Definition str_app (a b : string) : string := String.append a b.
Infix "+++" := str_app (at level 60, right associativity).

Definition code (c : ascii) : Z := Z.of_N (N_of_ascii c).

(** [str.join]. *)
Fixpoint join (sep : string) (l : list string) : string :=
  match l with
  | [] => ""
  | [x] => x
  | x :: r => x +++ sep +++ join sep r
  end.

(** "".join *)
Fixpoint sconcat (l : list string) : string :=
  match l with [] => "" | x :: r => x +++ sconcat r end.

(** [len(s)]. *)
Definition slen (s : string) : Z := Z.of_nat (String.length s).

(** [s.startswith(p)]. *)
Fixpoint startswith (p s : string) : bool :=
  match p, s with
  | EmptyString, _ => true
  | String a p', String b s' => Ascii.eqb a b && startswith p' s'
  | String _ _, EmptyString => false
  end.

(** [s.endswith(p)]. *)
Fixpoint endswith (p s : string) : bool :=
  String.eqb p s ||
  match s with EmptyString => false | String _ s' => endswith p s' end.

(** [p in s] for strings. *)
Fixpoint contains (p s : string) : bool :=
  startswith p s ||
  match s with EmptyString => false | String _ s' => contains p s' end.

Fixpoint smap (f : ascii -> ascii) (s : string) : string :=
  match s with EmptyString => EmptyString | String c r => String (f c) (smap f r) end.

Fixpoint sfilter (f : ascii -> bool) (s : string) : string :=
  match s with
  | EmptyString => EmptyString
  | String c r => if f c then String c (sfilter f r) else sfilter f r
  end.

Fixpoint sany (f : ascii -> bool) (s : string) : bool :=
  match s with EmptyString => false | String c r => f c || sany f r end.

Definition sall (f : ascii -> bool) (s : string) : bool := negb (sany (fun c => negb (f c)) s).

(** [s.lower()], ASCII. *)
Definition lower_ascii (c : ascii) : ascii :=
  let n := code c in
  if (65 <=? n) && (n <=? 90) then ascii_of_N (Z.to_N (n + 32)) else c.
Definition lower (s : string) : string := smap lower_ascii s.

(** [str.isspace] characters in the ASCII range: \t \n \v \f \r \x1c-\x1f and space. *)
Definition is_space (c : ascii) : bool :=
  let n := code c in
  ((9 <=? n) && (n <=? 13)) || ((28 <=? n) && (n <=? 32)).

Fixpoint lstrip (s : string) : string :=
  match s with
  | EmptyString => EmptyString
  | String c r => if is_space c then lstrip r else s
  end.

Fixpoint rstrip (s : string) : string :=
  match s with
  | EmptyString => EmptyString
  | String c r =>
      match rstrip r with
      | EmptyString => if is_space c then EmptyString else String c EmptyString
      | r' => String c r'
      end
  end.

(** [s.strip()]. *)
Definition strip (s : string) : string := rstrip (lstrip s).

(** Split on every character satisfying [f] ([re.split] with a character class, [str.split(c)]). *)
Fixpoint split_on (f : ascii -> bool) (s : string) : list string :=
  match s with
  | EmptyString => [EmptyString]
  | String c r =>
      if f c then EmptyString :: split_on f r
      else match split_on f r with
           | [] => [String c EmptyString]
           | h :: t => String c h :: t
           end
  end.

Definition split_char (c : ascii) : string -> list string := split_on (Ascii.eqb c).

(** [s.replace(a, b)] with a one-character [a]. *)
Fixpoint replace_char (a : ascii) (b : string) (s : string) : string :=
  match s with
  | EmptyString => EmptyString
  | String c r => (if Ascii.eqb a c then b else chr c) +++ replace_char a b r
  end.

(** [s * n] for n >= 0. *)
Fixpoint srepeat (s : string) (n : nat) : string :=
  match n with O => "" | S k => s +++ srepeat s k end.

(** [s[n:]]. *)
Fixpoint sdrop (n : nat) (s : string) : string :=
  match n, s with
  | O, _ => s
  | S k, String _ r => sdrop k r
  | S _, EmptyString => EmptyString
  end.

(** [s[:n]]. *)
Fixpoint stake (n : nat) (s : string) : string :=
  match n, s with
  | O, _ => EmptyString
  | S k, String c r => String c (stake k r)
  | S _, EmptyString => EmptyString
  end.

(** [s[:-1]]. *)
Fixpoint sinit (s : string) : string :=
  match s with
  | EmptyString => EmptyString
  | String c EmptyString => EmptyString
  | String c r => String c (sinit r)
  end.

(** [s.splitlines()] / [s.splitlines(True)] on ASCII line boundaries (\n, \r, \r\n, \v, \f, \x1c-\x1e). *)
Definition is_linebreak (c : ascii) : bool :=
  let n := code c in ((10 <=? n) && (n <=? 13)) || ((28 <=? n) && (n <=? 30)).

Fixpoint splitlines_aux (keep : bool) (cur : string) (s : string) : list string :=
  match s with
  | EmptyString => match cur with EmptyString => [] | _ => [cur] end
  | String c r =>
      if is_linebreak c then
        if Ascii.eqb c (ascii_of_nat 13) then
          match r with
          | String d r' =>
              if Ascii.eqb d (ascii_of_nat 10)
              then (if keep then cur +++ String c (chr d) else cur) :: splitlines_aux keep "" r'
              else (if keep then cur +++ chr c else cur) :: splitlines_aux keep "" r
          | EmptyString => [if keep then cur +++ chr c else cur]
          end
        else (if keep then cur +++ chr c else cur) :: splitlines_aux keep "" r
      else splitlines_aux keep (cur +++ chr c) r
  end.
Definition splitlines (s : string) : list string := splitlines_aux false "" s.
Definition splitlines_keep (s : string) : list string := splitlines_aux true "" s.

(** Digits and decimal numbers. *)
Definition is_digit (c : ascii) : bool := let n := code c in (48 <=? n) && (n <=? 57).

(** [str(int)]. *)
Definition z_str (z : Z) : string := NilZero.string_of_int (Z.to_int z).

Definition nat_str (n : nat) : string := z_str (Z.of_nat n).

(** Value of a digit string, most significant first, as [int(s)] on digits only. *)
Fixpoint digits_val (acc : Z) (s : string) : Z :=
  match s with
  | EmptyString => acc
  | String c r => digits_val (acc * 10 + (code c - 48)) r
  end.

(** Digits with single underscores between them, the body of Python's [int()] literal. *)
Fixpoint int_body (prev_digit : bool) (acc : Z) (s : string) : option Z :=
  match s with
  | EmptyString => if prev_digit then Some acc else None
  | String c r =>
      if is_digit c then int_body true (acc * 10 + (code c - 48)) r
      else if Ascii.eqb c "_" && prev_digit then int_body false acc r
      else None
  end.

(** [int(s)] for a string, base 10: surrounding whitespace, optional sign, digits with single
    underscores. [None] stands for ValueError. ASCII digits only. *)
Definition py_int (s : string) : option Z :=
  match strip s with
  | EmptyString => None
  | String c r =>
      if Ascii.eqb c "-" then option_map Z.opp (int_body false 0 r)
      else if Ascii.eqb c "+" then int_body false 0 r
      else int_body false 0 (String c r)
  end.

(** Longest digit prefix and the rest, the greedy [\d+] of [re]. *)
Fixpoint span_digits (s : string) : string * string :=
  match s with
  | EmptyString => ("", "")
  | String c r =>
      if is_digit c then let (a, b) := span_digits r in (String c a, b) else ("", s)
  end.

(** Everything up to the first newline, the greedy [.*] of [re]. *)
Fixpoint upto_newline (s : string) : string :=
  match s with
  | EmptyString => ""
  | String c r => if Ascii.eqb c (ascii_of_nat 10) then "" else String c (upto_newline r)
  end.

(** ** String order (code points) *)
Fixpoint str_compare (a b : string) : comparison :=
  match a, b with
  | EmptyString, EmptyString => Eq
  | EmptyString, String _ _ => Lt
  | String _ _, EmptyString => Gt
  | String x a', String y b' =>
      match (code x ?= code y) with Eq => str_compare a' b' | c => c end
  end.
Definition str_leb (a b : string) : bool :=
  match str_compare a b with Gt => false | _ => true end.
Definition str_ltb (a b : string) : bool :=
  match str_compare a b with Lt => true | _ => false end.

(** ** Lists as sets, association lists as dicts *)
Definition mem (x : string) (l : list string) : bool := existsb (String.eqb x) l.

(** [set.add]. *)
Definition set_add (x : string) (l : list string) : list string :=
  if mem x l then l else l ++ [x].

Definition set_remove (x : string) (l : list string) : list string :=
  filter (fun y => negb (String.eqb x y)) l.

(** Set of a list: first occurrences. *)
Fixpoint dedup_from (seen : list string) (l : list string) : list string :=
  match l with
  | [] => []
  | x :: r => if mem x seen then dedup_from seen r else x :: dedup_from (x :: seen) r
  end.
Definition dedup (l : list string) : list string := dedup_from [] l.

(** [dict.get]. *)
Fixpoint assoc {A} (k : string) (l : list (string * A)) : option A :=
  match l with
  | [] => None
  | (k', v) :: r => if String.eqb k k' then Some v else assoc k r
  end.

(** [d[k] = v], keeping the position of an existing key. *)
Fixpoint dict_set {A} (k : string) (v : A) (l : list (string * A)) : list (string * A) :=
  match l with
  | [] => [(k, v)]
  | (k', v') :: r => if String.eqb k k' then (k, v) :: r else (k', v') :: dict_set k v r
  end.

(** [del d[k]]. *)
Definition dict_del {A} (k : string) (l : list (string * A)) : list (string * A) :=
  filter (fun kv => negb (String.eqb k (fst kv))) l.

Definition has_key {A} (k : string) (l : list (string * A)) : bool :=
  match assoc k l with Some _ => true | None => false end.

(** ** Sorting: [list.sort(key=...)] is a stable sort; insertion sort from the right is stable. *)
Section Sort.
  Context {A : Type} (leb : A -> A -> bool).
  Fixpoint insert (x : A) (l : list A) : list A :=
    match l with
    | [] => [x]
    | y :: r => if leb x y then x :: l else y :: insert x r
    end.
  Fixpoint isort (l : list A) : list A :=
    match l with [] => [] | x :: r => insert x (isort r) end.
End Sort.

(** ** Versions *)

(** A version tuple [(major, minor)]. *)
Definition ver : Set := (Z * Z)%type.

(** Tuple comparison. *)
Definition vltb (a b : ver) : bool :=
  (fst a <? fst b) || ((fst a =? fst b) && (snd a <? snd b)).
Definition vleb (a b : ver) : bool := negb (vltb b a).
Definition veqb (a b : ver) : bool := (fst a =? fst b) && (snd a =? snd b).

(** [max(a, b)]: the first argument unless the second one is greater. *)
Definition vmax (a b : ver) : ver := if vltb a b then b else a.

(** The two-element requirement list [py2, py3]; [None] means incompatible. *)
Definition mins : Set := (option ver * option ver)%type.

Definition ver_eqb_opt (a b : option ver) : bool :=
  match a, b with
  | None, None => true
  | Some x, Some y => veqb x y
  | _, _ => false
  end.
Definition mins_eqb (a b : mins) : bool :=
  ver_eqb_opt (fst a) (fst b) && ver_eqb_opt (snd a) (snd b).

(** The unknown requirement [(0, 0), (0, 0)]. *)
Definition zero_mins : mins := (Some (0, 0), Some (0, 0)).

Notation "'letr' x ':=' m 'in' k" := (bindr m (fun x => k))
  (at level 200, x pattern, right associativity).
