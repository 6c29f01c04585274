(** The sort keys as Python computes them, in binary64 (utility.py:108-146). Utility.v has the same keys as
    exact rationals; Prop_Binary64.v compares the two.

    Only numbers that are not negative occur. A finite one is counted in units of 2^-1074, the least positive
    binary64 number. *)
From Verif Require Import PyBase Utility Config.

Inductive b64 : Set := Fin (units : Z) | Inf.

(** One, in units. *)
Definition unit64 : Z := 2 ^ 1074.

(** [n / d] rounded to the nearest integer, to the even one of two. *)
Definition half_even (n d : Z) : Z :=
  let q := n / d in
  match 2 * (n mod d) ?= d with Lt => q | Gt => q + 1 | Eq => if Z.even q then q else q + 1 end.

(** IEEE 754: [n / d] units rounded to 53 significant bits, to the even one of two; infinity from 2^1024 on. *)
Definition round64 (n d : Z) : b64 :=
  let shift := Z.max 0 (Z.log2 (n / d) - 52) in
  let r := 2 ^ shift * half_even n (d * 2 ^ shift) in
  if r <? 2 ^ 2098 then Fin r else Inf.

(** [float(s)] of decimal digits; [x / k] for an int [k] below 2^53; [x + y]. *)
Definition float_of (z : Z) : b64 := round64 (z * unit64) 1.
Definition div64 (x : b64) (k : Z) : b64 := match x with Fin n => round64 n k | Inf => Inf end.
Definition add64 (x y : b64) : b64 :=
  match x, y with Fin a, Fin b => round64 (a + b) 1 | _, _ => Inf end.
(** [z + x] for an int [z]: None is the OverflowError of an int too large for a float. *)
Definition int_add64 (z : Z) (x : b64) : option b64 :=
  match float_of z with Inf => None | y => Some (add64 y x) end.

(** utility.py:108-113 [bounded_str_hash]. *)
Definition bounded_str_hash64 (s : string) : b64 := div64 (float_of (bounded_str_hash s)) 1000000.

(** utility.py:127-131, 142-146: the key of a line number, a column and a text. Simplification: the limit of
    4300 digits of newer versions of int() is left out. *)
Definition key64 (l : Z) (c : option Z) (t : string) : option b64 :=
  let h := div64 (bounded_str_hash64 t) 1000 in
  match c with
  | None => int_add64 l h
  | Some c => option_map (fun x => add64 x h) (int_add64 l (div64 (float_of c) 1000))
  end.

(** utility.py:117-131 [sort_line_column]. *)
Definition sort_line_column64 (s : string) : option b64 :=
  match match_line_col s with
  | None => Some (bounded_str_hash64 s)
  | Some (l, c, t) => key64 (digits_val 0 l) (option_map (digits_val 0) c) t
  end.

(** utility.py:135-146 [sort_line_column_parsable]. *)
Definition sort_line_column_parsable64 (s : string) : option b64 :=
  match match_parsable s with
  | None => Some (bounded_str_hash64 s)
  | Some (l, c, t) => key64 (digits_val 0 l) (if String.eqb c "" then None else Some (digits_val 0 c)) t
  end.

(** [x <= y] of floats. *)
Definition leb64 (x y : b64) : bool :=
  match x, y with Fin a, Fin b => a <=? b | _, Inf => true | Inf, Fin _ => false end.

(** default_format.py:40-46, parsable_format.py:37-39 [sort_output_lines]: None if a key cannot be computed. *)
Fixpoint keyed64 (key : string -> option b64) (l : list string) : option (list (b64 * string)) :=
  match l with
  | [] => Some []
  | x :: r =>
      match key x, keyed64 key r with Some k, Some r' => Some ((k, x) :: r') | _, _ => None end
  end.
Definition sort64 (key : string -> option b64) (l : list string) : option (list string) :=
  option_map (fun p => map snd (isort (fun a b => leb64 (fst a) (fst b)) p)) (keyed64 key l).
Definition sort_output_lines64 (c : config) (lines : list string) : option (list string) :=
  match c_format c with
  | FDefault =>
      if (2 <? c_verbose c) && negb (c_print_visits c) then sort64 sort_line_column64 lines
      else Some (isort str_leb lines)
  | FParsable => sort64 sort_line_column_parsable64 lines
  end.
