(** Model of the parts of the standard library's posixpath that vermin relies on
    (os.path.join, normpath, abspath, basename, splitext). Trusted reading of CPython, POSIX only. *)
From Verif Require Import PyBase.

Definition slash : ascii := "/"%char.

(** posixpath.isabs *)
Definition isabs (p : string) : bool := startswith "/" p.

(** posixpath.join with two arguments. *)
Definition path_join (a b : string) : string :=
  if isabs b then b
  else if String.eqb a "" || endswith "/" a then a +++ b
  else a +++ "/" +++ b.

(** The component loop of posixpath.normpath; [acc] is new_comps reversed. *)
Fixpoint norm_comps (absolute : bool) (acc comps : list string) : list string :=
  match comps with
  | [] => rev acc
  | c :: r =>
      if String.eqb c "" || String.eqb c "." then norm_comps absolute acc r
      else if negb (String.eqb c "..")
              || (negb absolute && match acc with [] => true | _ => false end)
              || match acc with x :: _ => String.eqb x ".." | [] => false end
           then norm_comps absolute (c :: acc) r
           else norm_comps absolute (tl acc) r
  end.

(** posixpath.normpath *)
Definition normpath (p : string) : string :=
  if String.eqb p "" then "."
  else
    let slashes := if startswith "//" p && negb (startswith "///" p) then "//"
                   else if startswith "/" p then "/" else "" in
    let body := slashes +++ join "/" (norm_comps (isabs p) [] (split_char slash p)) in
    if String.eqb body "" then "." else body.

(** posixpath.abspath in the working directory [cwd]. *)
Definition abspath (cwd p : string) : string :=
  normpath (if isabs p then p else path_join cwd p).

(** posixpath.basename *)
Definition basename (p : string) : string := last (split_char slash p) "".

Fixpoint lstrip_dots (s : string) : string :=
  match s with
  | String c r => if Ascii.eqb c "." then lstrip_dots r else s
  | _ => s
  end.

(** posixpath.splitext(p)[1][1:]: what follows the last dot of the basename once its leading dots are
    gone; empty if there is no such dot. *)
Definition ext_of (p : string) : string :=
  match rev (split_char "."%char (lstrip_dots (basename p))) with
  | e :: _ :: _ => e
  | _ => ""
  end.
