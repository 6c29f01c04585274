(** Specifications for the utility functions (C01-C12). *)
From Coq Require Import Floats.SpecFloat.
From Verif Require Import PyBase Utility Spec_Base.

(** What a non-float entry of a requirement list stands for. *)
Inductive means : pv -> option ver -> Prop :=
| means_none : means PNone None
| means_int z : means (PInt z) (Some (z, 0))
| means_tup v : means (PTup v) (Some v).

(** Combining a whole list of requirements, one after the other, starting from [m]. *)
Fixpoint combine_all (ignore : bool) (m : mins) (l : list mins) : res mins :=
  match l with
  | [] => Ok m
  | x :: r => match combine2 ignore None m x with Ok m' => combine_all ignore m' r | Err e => Err e end
  end.

(** How one entry of a requirement pair is written; [n] is the Python major of its position. *)
Inductive writes (n : Z) : option ver -> string -> Prop :=
| writes_unknown : writes n (Some (0, 0)) ("~" +++ z_str n)
| writes_incompat : writes n None ("!" +++ z_str n)
| writes_ver x y : (x, y) <> (0, 0) -> writes n (Some (x, y)) (z_str x +++ "." +++ z_str y).

(** Characters that occur in a printed version. *)
Definition version_char (c : ascii) : bool :=
  is_digit c || Ascii.eqb c "." || Ascii.eqb c "-" || Ascii.eqb c "~" || Ascii.eqb c "!".

(** A separator that cannot be confused with a version. *)
Definition good_sep (sep : string) : Prop :=
  match sep with EmptyString => False | String c _ => version_char c = false end.

(** A component of a target: what Python's int() reads as a non-negative number. *)
Definition component (s : string) (n : Z) : Prop := py_int s = Some n /\ 0 <= n.

(** How a target is written. *)
Inductive target_body : string -> ver -> Prop :=
| tb_major a x : component a x -> target_body a (x, 0)
| tb_minor a c b x y : (c = "."%char \/ c = ","%char) -> component a x -> component b y ->
    target_body (a +++ String c b) (x, y).
Inductive writes_target : string -> target -> Prop :=
| wt_exact s v : target_body s v -> writes_target s (true, v)
| wt_min s v : target_body s v -> writes_target (s +++ "-") (false, v).

Definition in_range (v : ver) : Prop := ver_le (2, 0) v /\ ver_lt v (4, 0).

(** A requirement [r] satisfies the target. *)
Definition target_ok (t : target) (r : ver) : Prop :=
  fst r = fst (snd t) /\ if fst t then r = snd t else ver_le r (snd t).

Definition one_per_major {A} (maj : A -> Z) (l : list A) : Prop := NoDup (map maj l).

(** Flattened names of a name list, one level of nesting. *)
Definition names1 (n : pyname) : list string :=
  match n with NStr s => [s] | _ => [] end.
Definition names (n : pyname) : list string :=
  match n with
  | NStr s => [s]
  | NInt z => [z_str z]
  | NNone => []
  | NSeq l => flat_map names1 l
  end.
(** The name lists in scope: nested lists hold names and None only. *)
Definition plain (n : pyname) : Prop := match n with NStr _ | NNone => True | _ => False end.
Definition name_ok (n : pyname) : Prop :=
  match n with NSeq l => Forall plain l | _ => True end.

(** An output line at a position. *)
Definition render (line : Z) (col : option Z) (text : string) : string :=
  "L" +++ z_str line +++ match col with None => "" | Some c => " C" +++ z_str c end +++ ":" +++ text.
Definition render_parsable (path : string) (line : Z) (col : option Z) (text : string) : string :=
  path +++ ":" +++ z_str line +++ ":" +++ match col with None => "" | Some c => z_str c end
       +++ ":" +++ text.
Definition col_of (c : option Z) : Z := match c with None => 0 | Some c => c end.

(** A path without a colon or newline; a position with a column below 1000. *)
Definition plain_path (path : string) : Prop :=
  sall (fun c => negb (Ascii.eqb c ":") && negb (Ascii.eqb c (ascii_of_nat 10))) path = true.
Definition pos_ok (l : Z) (c : option Z) : Prop := 0 <= l /\ forall x, c = Some x -> 0 <= x < 1000.

(** Position order. *)
Definition pos_lt (l : Z) (c : option Z) (l' : Z) (c' : option Z) : Prop :=
  l < l' \/ (l = l' /\ col_of c < col_of c').

(** Characters of a string. *)
Fixpoint chars_of (s : string) : list ascii :=
  match s with EmptyString => [] | String c r => c :: chars_of r end.

(** The ASCII whitespace characters: space, tab, newline, carriage return, form feed, vertical tab. *)
Definition whitespace (c : ascii) : Prop := In (code c) [32; 9; 10; 13; 12; 11].

(** [b] is [a] without the elements satisfying [P], order kept. *)
Inductive erased {A} (P : A -> Prop) : list A -> list A -> Prop :=
| er_nil : erased P [] []
| er_drop x a b : P x -> erased P a b -> erased P (x :: a) b
| er_keep x a b : ~ P x -> erased P a b -> erased P (x :: a) (x :: b).

(** Sum of the character codes. *)
Fixpoint code_sum (s : string) : Z :=
  match s with EmptyString => 0 | String c r => code c + code_sum r end.

(** The lines of one entry of a listing whose title column is [w] wide. *)
Definition all_spaces (s : string) : Prop := forall c, In c (chars_of s) -> c = " "%char.
Definition listing_entry (indent w : nat) (p : string * list string) (ls : list string) : Prop :=
  exists pre pad cont d ds,
    all_spaces pre /\ String.length pre = indent /\
    all_spaces pad /\ (String.length (fst p) + String.length pad = w)%nat /\
    all_spaces cont /\ (String.length cont = indent + w + 3)%nat /\
    snd p = d :: ds /\
    ls = (pre +++ fst p +++ pad +++ " - " +++ d) :: map (fun x => cont +++ x) ds.

(** Entries laid out one after the other. *)
Inductive listing (indent w : nat) : list (string * list string) -> list string -> Prop :=
| ls_nil : listing indent w [] []
| ls_cons p ps l ls : listing_entry indent w p l -> listing indent w ps ls ->
    listing indent w (p :: ps) (l ++ ls).
