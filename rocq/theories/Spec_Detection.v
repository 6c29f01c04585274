(** Specifications for finding files (C28-C31). *)
From Verif Require Import PyBase Utility RulesData Rules Config Paths Pool Detection Spec_Base.

(** [t] occurs in [s]. *)
Definition occurs (t s : string) : Prop := exists a b, s = a +++ t +++ b.
Definition begins (t s : string) : Prop := exists b, s = t +++ b.

(** The path is a folder, itself or (where allowed) through a symbolic link. *)
Definition is_folder (fs : fsys) (links : bool) (q : string) : Prop :=
  fs_lstat fs q = Some KDir \/
  (links = true /\ fs_lstat fs q = Some KLnk /\ fs_stat fs q = Some KDir).
(** The path is a regular file, itself or through a symbolic link. *)
Definition is_file (fs : fsys) (q : string) : Prop :=
  fs_lstat fs q = Some KReg \/ (fs_lstat fs q = Some KLnk /\ fs_stat fs q = Some KReg).

Section Reach.
  Variable fs : fsys.
  Variable cwd : string.
  Variable search : string -> string -> bool.
  Variable c : config.
  Variable hidden : bool.
  Variable ignore : list string.
  Variable scan : bool.
  Variable paths : list string.

  (** No ignored text in the path and no exclusion pattern matches it. *)
  Definition not_left_out (p : string) : Prop :=
    (forall t, In t ignore -> ~ occurs t p) /\
    (forall r, In r (c_exclusion_regex_set c) -> search r p = false).
  (** Not begun by a dot, unless asked for or exactly ".". *)
  Definition shown (p : string) : Prop := hidden = true \/ p = "." \/ ~ begins "." p.
  Definition actual (p : string) : string := if c_make_paths_absolute c then abspath cwd p else p.

  (** [looked_at d p]: the search comes to [p], [d] folders below a given path. *)
  Inductive looked_at : nat -> string -> Prop :=
  | LGiven : forall p, In p paths -> looked_at 0 p
  | LEntry : forall d p names n,
      looked_at d p -> not_left_out p -> shown p ->
      is_folder fs (match d with O => true | _ => scan end) (actual p) ->
      fs_listdir fs (actual p) = Some names -> In n names ->
      (hidden = true \/ ~ begins "." n) ->
      looked_at (S d) (path_join (actual p) n).

  Definition should_find (q : string) : Prop :=
    exists d p, looked_at d p /\ not_left_out p /\ shown p /\ q = actual p /\ is_file fs q /\
                (d = O \/ probably_python_file fs q = true).
End Reach.

(** Two file systems that differ only in the order (and repetition) of folder listings. *)
Definition same_listings (a b : fsys) : Prop :=
  (forall p, fs_lstat a p = fs_lstat b p) /\ (forall p, fs_stat a p = fs_stat b p) /\
  (forall p, fs_lines a p = fs_lines b p) /\
  (forall p, match fs_listdir a p, fs_listdir b p with
             | Some l, Some m => forall n, In n l <-> In n m
             | None, None => True
             | _, _ => False
             end).

(** Strictly increasing: sorted without repetition. *)
Definition str_lt (a b : string) : Prop := str_compare a b = Lt.

(** File name extension: what follows the last dot of the last path component, when something other
    than dots comes before that dot. *)
Definition no_char (ch : ascii) (s : string) : Prop := forall a b, s <> a +++ String ch b.
Definition has_ext (p e : string) : Prop :=
  exists d s, p = d +++ s +++ "." +++ e /\ (d = "" \/ exists d', d = d' +++ "/") /\
    no_char "/" s /\ no_char "/" e /\ no_char "." e /\
    exists a x b, s = a +++ String x b /\ x <> "."%char.

(** A line that begins, after blanks, with "#!" and mentions python after that, in any letter case. *)
Definition magic (l : string) : Prop :=
  exists ws a b, (forall x r t, ws = r +++ String x t -> is_space x = true) /\
                 lower l = ws +++ "#!" +++ a +++ "python" +++ b.
Definition magic_file (lines : list (option string)) : Prop :=
  exists i l, (i < 10)%nat /\ nth_error lines i = Some (Some l) /\ magic l /\
    forall j, (j < i)%nat -> exists k, nth_error lines j = Some (Some k).
