(** Model of /repo/vermin/detection.py:427-539 (finding files). [detect] and [visit] are in Processor.v. *)
From Verif Require Import PyBase Utility RulesData Rules Config Paths Pool.

(** st_mode kinds. *)
Inductive fkind : Set := KReg | KDir | KLnk | KOtherFile.
Definition fkind_eqb (a b : fkind) : bool :=
  match a, b with
  | KReg, KReg | KDir, KDir | KLnk, KLnk | KOtherFile, KOtherFile => true
  | _, _ => false
  end.

(** The file system as an oracle. [None] is OSError. [fs_lines p] are the outcomes of successive
    readline() calls on the file opened as UTF-8 text ([None] in the list: a read or decode error);
    [None] when open() raises. *)
Record fsys : Type := mkFs {
  fs_lstat : string -> option fkind;
  fs_stat : string -> option fkind;
  fs_listdir : string -> option (list string);
  fs_lines : string -> option (list (option string))
}.

(** detection.py:432, 436: definite and compiled Python extensions. *)
Definition py_exts : list string := ["py"; "py3"; "pyw"; "pyj"; "pyi"].
Definition not_src_exts : list string := ["pyc"; "pyd"; "pxd"; "pyx"; "pyo"].

(** One line test (detection.py:444-446). *)
Definition magic_line (l : string) : bool :=
  let l := strip (lower l) in startswith "#!" l && contains "python" l.

(** The loop of detection.py:442-446 over at most [n] lines; an error ends it with False
    (detection.py:447-449); at end of file readline gives "". *)
Fixpoint magic_lines (n : nat) (ls : list (option string)) : bool :=
  match n, ls with
  | O, _ => false
  | S _, [] => false
  | S _, None :: _ => false
  | S k, Some l :: r => magic_line l || magic_lines k r
  end.

(** detection.py:427-451 [probably_python_file]. *)
Definition probably_python_file (fs : fsys) (path : string) : bool :=
  let ext := ext_of (lower path) in
  if mem ext py_exts then true
  else if mem ext not_src_exts || mem ext not_py_code_exts then false
  else match fs_lines fs path with
       | None => false
       | Some ls => magic_lines 10 ls
       end.

(** detection.py:456-468 [stat_path]. *)
Definition stat_path (fs : fsys) (path : string) (scan : bool) : option fkind :=
  match fs_lstat fs path with
  | None => None
  | Some KLnk =>
      match fs_stat fs path with
      | None => None
      | Some KDir => if scan then Some KDir else None
      | Some k => Some k
      end
  | Some k => Some k
  end.

Definition first_is_dot (p : string) : bool :=
  match p with String c _ => Ascii.eqb c "." | EmptyString => false end.

Section Detect.
  Variable fs : fsys.
  Variable cwd : string.
  Variable search : string -> string -> bool.
  Variable c : config.
  Variable hidden : bool.
  Variable ignore_chars : list string.
  Variable scan : bool.

  (** What one path contributes (the loop body of detection.py:477-498): nothing, an accepted file, or
      the entries of a folder. [Err IndexError] is [path[0]] of an empty path (line 481). *)
  Inductive found : Type := FNone | FAccept (p : string) | FFolder (files : list string).

  Definition detect_one (depth : nat) (path : string) : res found :=
    if existsb (fun ic => contains ic path) ignore_chars || is_excluded_by_regex search c path
    then Ok FNone
    else if negb hidden && negb (String.eqb path ".") && String.eqb path "" then Err IndexError
    else if negb hidden && negb (String.eqb path ".") && first_is_dot path then Ok FNone
    else
      let path := if c_make_paths_absolute c then abspath cwd path else path in
      match stat_path fs path (if Nat.eqb depth 0 then true else scan) with
      | None => Ok FNone
      | Some KDir =>
          match fs_listdir fs path with
          | None => Ok FNone
          | Some names =>
              Ok (FFolder (map (path_join path) (filter (fun p => hidden || negb (first_is_dot p)) names)))
          end
      | Some KReg =>
          if Nat.eqb depth 0 || probably_python_file fs path then Ok (FAccept path) else Ok FNone
      | Some _ => Ok FNone
      end.

  (** detection.py:472-499 [detect_paths_incremental]: accepted paths and further folders' entries. *)
  Fixpoint detect_incremental (depth : nat) (paths : list string) : res (list string * list (list string)) :=
    match paths with
    | [] => Ok ([], [])
    | p :: r =>
        letr f := detect_one depth p in
        letr (acc, further) := detect_incremental depth r in
        match f with
        | FNone => Ok (acc, further)
        | FAccept q => Ok (q :: acc, further)
        | FFolder l => Ok (acc, l :: further)
        end
    end.

  (** One round of the while loop (detection.py:525-532), results in argument order. *)
  Fixpoint detect_round (depth : nat) (args : list (list string)) : res (list string * list (list string)) :=
    match args with
    | [] => Ok ([], [])
    | a :: r =>
        letr (acc, further) := detect_incremental depth a in
        letr (acc', further') := detect_round depth r in
        Ok (acc ++ acc', further ++ further')
    end.

  (** detection.py:525-539: rounds until no folders are left; [None] when [fuel] rounds do not suffice
      (folders nested deeper, or an endless symlink cycle). *)
  Fixpoint detect_loop (fuel depth : nat) (args : list (list string)) : option (res (list string)) :=
    match args with
    | [] => Some (Ok [])
    | _ =>
        match fuel with
        | O => None
        | S k =>
            match detect_round depth args with
            | Err e => Some (Err e)
            | Ok (acc, further) =>
                match detect_loop k (S depth) further with
                | None => None
                | Some (Err e) => Some (Err e)
                | Some (Ok l) => Some (Ok (acc ++ l))
                end
            end
        end
    end.

  (** detection.py:505-539 [detect_paths]. *)
  Definition detect_paths (fuel : nat) (paths : list string) : option (res (list string)) :=
    detect_loop fuel 0 [paths].

  (** The consuming for loop (detection.py:527-531) over results that arrive in task order; a worker's
      exception is raised when its result is asked for. *)
  Fixpoint collect (got : list (res (list string * list (list string))))
    : res (list string * list (list string)) :=
    match got with
    | [] => Ok ([], [])
    | x :: r =>
        letr (acc, further) := x in
        letr (acc', further') := collect r in
        Ok (acc ++ acc', further ++ further')
    end.

  (** detection.py:518-532 with processes > 1: each round's results come through pool.imap, under any
      schedule of the workers. *)
  Inductive detect_pool : nat -> list (list string) -> res (list string) -> Prop :=
  | DPDone : forall d, detect_pool d [] (Ok [])
  | DPRound : forall d args evs s got acc further r,
      args <> [] -> schedule (List.length args) evs ->
      imap_run (fun i => detect_incremental d (nth i args [])) evs imap_init [] = (s, got) ->
      List.length got = List.length args ->
      collect got = Ok (acc, further) ->
      detect_pool (S d) further r ->
      detect_pool d args (mapr (app acc) r)
  | DPFail : forall d args evs s got e,
      args <> [] -> schedule (List.length args) evs ->
      imap_run (fun i => detect_incremental d (nth i args [])) evs imap_init [] = (s, got) ->
      collect got = Err e ->
      detect_pool d args (Err e).
End Detect.
