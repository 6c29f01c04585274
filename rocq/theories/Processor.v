(** Model of /repo/vermin/processor.py and of [visit] and [detect] of /repo/vermin/detection.py. *)
From Verif Require Import PyBase Utility RulesData Rules Config Formats Paths AstKinds Ast State Visitor
  MinVersions Parser Pool.

(** ** Parsing as an oracle *)

(** Exceptions of open(), read(), ast.parse() and tokenize: a SyntaxError; a ValueError or TypeError
    (null bytes, undecodable names); KeyboardInterrupt; any other Exception with the text
    "<class>, <message>" it is rendered as (processor.py:120-122). *)
Inductive perr : Type :=
| PeSyntax (se : syntax_error)
| PeValue
| PeType
| PeInterrupt
| PeOther (text : string).

(** What CPython makes of a source: ast.parse raises, or gives a tree; then tokenize, which runs only
    when comments are parsed, raises or gives the tokens. *)
Inductive parsed : Type :=
| PErr (x : perr)
| PTree (node : pyval) (toks : perr + list token).

(** parser.py:71-106 [Parser.detect]: a tree and the excluded lines; or the verdict and the printed
    lines for a SyntaxError; or another exception. *)
Inductive detected : Type :=
| DTree (node : pyval) (novermin : list Z)
| DVerdict (m : mins) (printed : list string)
| DExn (x : perr).

Definition parser_detect (major : Z) (c : config) (p : parsed) : detected :=
  let err x := match x with
               | PeSyntax se => let (m, out) := syntax_verdict major c se in DVerdict m out
               | x => DExn x
               end in
  match p with
  | PErr x => err x
  | PTree node toks =>
      if c_parse_comments c
      then match toks with
           | inl x => err x
           | inr l => DTree node (comments l)
           end
      else DTree node []
  end.

(** The open parameters of a visit: the f-string heuristic and ast.dump (see State.v). *)
Record hooks : Type := mkHooks {
  h_selfdoc : list (string * string) -> pyval -> res bool;
  h_dump : pyval -> string
}.

(** source_state.py:22-24: the path of parsable output holds no colon and no newline. *)
Definition path_ok (c : config) (path : string) : bool :=
  negb (fmt_eqb (c_format c) FParsable) || negb (contains ":" path || contains nl path).

(** source_visitor.py:68-70, source_state.py:10-26, source_visitor.py:567-568: a visitor for a
    source, with its excluded lines. *)
Definition make_visitor (h : hooks) (c : config) (path source : string) (novermin : list Z) : res env :=
  py_assert (path_ok c path) (Ok (mkEnv c path (Some source) novermin (h_selfdoc h) (h_dump h))).

(** ** One file *)

(** processor.py:10-20 [ProcessResult]: mins is None, the empty list (a tree was found but not
    toured) or a pair. *)
Inductive rmins : Type := MNone | MEmpty | MVers (m : mins).
Record presult : Type := mkRes {
  r_path : string;
  r_mins : rmins;
  r_text : string;
  r_novermin : list Z;
  r_bps : list string;
  r_maybe : bool
}.

(** What a path holds when processed, and whether the user interrupts the tour: a file that cannot
    be opened or read, or a source with CPython's reading of it. *)
Inductive fcontent : Type :=
| FcErr (x : perr)
| FcSource (source : string) (p : parsed).

(** How the work on a file ends, apart from what the program does: undisturbed; KeyboardInterrupt
    during the tour; KeyboardInterrupt anywhere else while its result is computed or awaited;
    RecursionError (a RuntimeError) because the tree is too deep for the interpreter's stack. *)
Inductive ending : Type := EndDone | EndInterrupt | EndAbort | EndRecursion.

(** processor.py:124-148: the tour and its results. *)
Definition process_tree (h : hooks) (c : config) (path source : string) (node : pyval) (nov : list Z)
           (how : ending) : res presult :=
  letr e := make_visitor h c path source nov in
  match how with
  | EndInterrupt => Ok (mkRes path MEmpty "" nov [] false)
  | EndRecursion => Err RuntimeError
  | _ =>
    letr s := tour e node in
    match minimum_versions e s with
    | Ok (m, s') =>
        Ok (mkRes path (MVers m) (output_text e s') nov (dedup (filter is_backport (s_modules s')))
                  (has_flag s' FMaybeAnnotations))
    | Err (InvalidVersion msg) => Ok (mkRes path MNone msg nov [] false)
    | Err x => Err x
    end
  end.

(** processor.py:97-148 [process_individual]: the lines the worker prints itself, and its result
    ([None]: not Python code). *)
Definition process_individual (h : hooks) (major : Z) (c : config) (path : string) (f : fcontent)
           (how : ending) : list string * res (option presult) :=
  let on_exn x :=
    match x with
    | PeInterrupt => Ok (Some (mkRes path MNone "" [] [] false))
    | PeValue | PeType => Ok None
    | PeOther t => Ok (Some (mkRes path (MVers zero_mins) (path +++ ": " +++ t) [] [] false))
    | PeSyntax _ => Ok None
    end in
  match how, f with
  | EndAbort, _ => ([], Err KeyboardInterrupt)
  | _, FcErr x => ([], on_exn x)
  | _, FcSource source p =>
      match parser_detect major c p with
      | DExn x => ([], on_exn x)
      | DVerdict m printed => (printed, Ok (Some (mkRes path (MVers m) "" [] [] false)))
      | DTree node nov => ([], mapr Some (process_tree h c path source node nov how))
      end
  end.

(** ** All files *)

(** Lines printed, as characters. *)
Definition print_lines (l : list string) : string := sconcat (map (fun s => s +++ nl) l).

(** The loop state of processor.py:36-43, with what the parent has printed. *)
Record agg : Type := mkAgg {
  a_mins : mins;
  a_incomp : bool;
  a_unique : list ver;
  a_bps : list string;
  a_novm : bool;
  a_maybe : bool;
  a_out : string
}.
Definition agg_init : agg := mkAgg zero_mins false [] [] false false "".

(** processor.py:47-51 [print_incomp]. *)
Definition print_incomp (c : config) (path text : string) : string :=
  if c_ignore_incomp c then ""
  else print_lines (nprint c ("File with incompatible versions: " +++ path +++
                              (if String.eqb text "" then text else nl +++ "  " +++ text))).

Definition vmem (v : ver) (l : list ver) : bool := existsb (veqb v) l.
Definition add_unique (o : option ver) (l : list ver) : list ver :=
  match o with
  | Some v => if vltb (0, 0) v then if vmem v l then l else l ++ [v] else l
  | None => l
  end.
Definition set_union (a b : list string) : list string := fold_left (fun acc x => set_add x acc) b a.

(** formats: [output_result] of one file, as characters. *)
Definition output_result (c : config) (m : mins) (path text : string) : string :=
  match c_format c with
  | FDefault => print_lines (default_result c m path text)
  | FParsable => parsable_result m path text
  end.

(** One iteration of processor.py:60-87. An empty mins list fails an assertion: in version_strings
    (utility.py:86) when the result is shown, else in combine_versions (utility.py:60). *)
Definition agg_step (c : config) (r : option presult) (a : agg) : res agg :=
  match r with
  | None => Ok a
  | Some r =>
      match r_mins r with
      | MNone =>
          Ok (mkAgg (a_mins a) true (a_unique a) (a_bps a) (a_novm a) (a_maybe a)
                    (a_out a +++ print_incomp c (r_path r) (r_text r)))
      | MEmpty => Err AssertionError
      | MVers m =>
          let shown := if negb (c_only_show_violations c) || negb (String.eqb (r_text r) "")
                       then output_result c m (r_path r) (r_text r) else "" in
          let bps := set_union (a_bps a) (r_bps r) in
          let uniq := add_unique (snd m) (add_unique (fst m) (a_unique a)) in
          let novm := a_novm a || negb (List.length (r_novermin r) =? 0)%nat in
          let maybe := a_maybe a || r_maybe r in
          match combine2 (c_ignore_incomp c) None (a_mins a) m with
          | Ok m' => Ok (mkAgg m' (a_incomp a) uniq bps novm maybe (a_out a +++ shown))
          | Err (InvalidVersion _) =>
              Ok (mkAgg (a_mins a) true uniq bps novm maybe
                        (a_out a +++ shown +++ print_incomp c (r_path r) (r_text r)))
          | Err x => Err x
          end
      end
  end.

Fixpoint agg_loop (c : config) (rs : list (res (option presult))) (a : agg) : agg * option exn :=
  match rs with
  | [] => (a, None)
  | Err x :: _ => (a, Some x)
  | Ok r :: rest =>
      match agg_step c r a with
      | Ok a' => agg_loop c rest a'
      | Err x => (a, Some x)
      end
  end.

Definition first_err {A} (rs : list (res A)) : option exn :=
  fold_right (fun r acc => match r with Err x => Some x | Ok _ => acc end) None rs.

(** processor.py:53-58 [act] and the loop: with one process all results exist before the first is
    used; otherwise they are used in order as they arrive (Pool.v), an exception at its turn. A
    process count below one makes no pool: calling imap on None raises AttributeError. *)
Definition run_results (c : config) (processes : Z) (rs : list (res (option presult))) : agg * option exn :=
  if processes =? 1 then
    match first_err rs with
    | Some x => (agg_init, Some x)
    | None => agg_loop c rs agg_init
    end
  else if processes <? 1 then (agg_init, Some AttributeError)
  else agg_loop c rs agg_init.

(** processor.py:44, 53-90 with a pool of any size, event by event: worker [i] finishes, its printed
    lines on the shared stdout; the loop takes the next result when it is there. [work i] is the work
    on the [i]th of [n] paths. [None]: the loop has not ended with these events. *)
Definition add_out (s : string) (a : agg) : agg :=
  mkAgg (a_mins a) (a_incomp a) (a_unique a) (a_bps a) (a_novm a) (a_maybe a) (a_out a +++ s).
Fixpoint pool_loop (c : config) (work : nat -> list string * res (option presult)) (n : nat)
         (evs : list event) (s : imap_state (res (option presult))) (taken : nat) (a : agg)
  : option (agg * option exn) :=
  if (taken =? n)%nat then Some (a, None)
  else match evs with
  | [] => None
  | Complete i :: r =>
      pool_loop c work n r (imap_set i (snd (work i)) s) taken (add_out (print_lines (fst (work i))) a)
  | Next :: r =>
      match im_items s with
      | [] => pool_loop c work n r s taken a
      | Err x :: _ => Some (a, Some x)
      | Ok p :: xs =>
          match agg_step c p a with
          | Ok a' => pool_loop c work n r (mkImap (im_index s) xs (im_unsorted s)) (S taken) a'
          | Err x => Some (a, Some x)
          end
      end
  end.

Definition ver_leb (a b : ver) : bool := vleb a b.

(** processor.py:89-94: what [process] returns. *)
Record summary : Type := mkSum {
  m_mins : mins;
  m_incomp : bool;
  m_unique : list ver;
  m_bps : list string;
  m_novm : bool;
  m_maybe : bool
}.
Definition summary_of (a : agg) : summary :=
  mkSum (a_mins a) (a_incomp a) (isort ver_leb (a_unique a)) (a_bps a) (a_novm a) (a_maybe a).

(** processor.py:91-94: what is printed on a RuntimeError. *)
Definition runtime_note : string :=
  "RuntimeError: If running `Processor.process()` outside of" +++ nl +++
  "`if __name__ == ""__main__"":` it, or the code calling it, must be done within it instead.".

(** processor.py:33-94 [Processor.process]: the parent's output and the result. A RuntimeError ends
    the loop, and what was combined so far is returned (processor.py:91-98); that of a pool started
    outside the main module is not modelled. Lines printed by workers are in [process_individual]. *)
Definition process (h : hooks) (major : Z) (c : config) (file : string -> fcontent)
           (how : string -> ending) (processes : Z) (paths : list string) : string * res summary :=
  let rs := map (fun p => snd (process_individual h major c p (file p) (how p))) paths in
  match run_results c processes rs with
  | (a, None) => (a_out a, Ok (summary_of a))
  | (a, Some RuntimeError) => (a_out a +++ print_lines (nprint c runtime_note), Ok (summary_of a))
  | (a, Some x) => (a_out a, Err x)
  end.

(** ** The API for one source *)

(** detection.py:541-561 [visit]: a verdict for unparsable code, or the visited state after
    [minimum_versions] has run once. An exception of the parser passes through; [PeOther] stands for
    any other Exception and is given as OSError. *)
Definition exn_of (x : perr) : exn :=
  match x with
  | PeSyntax _ => ValueError
  | PeValue => ValueError
  | PeType => TypeError
  | PeInterrupt => KeyboardInterrupt
  | PeOther _ => OSError
  end.
Definition api_path (path : option string) : string :=
  match path with Some p => p | None => "<unknown>" end.

Definition api_visit (h : hooks) (major : Z) (c : config) (path : option string) (source : string) (p : parsed)
  : res (mins + env * st) :=
  match parser_detect major c p with
  | DExn x => Err (exn_of x)
  | DVerdict m _ => Ok (inl m)
  | DTree node nov =>
      letr e := make_visitor h c (api_path path) source nov in
      letr s := tour e node in
      letr ms := minimum_versions e s in
      Ok (inr (e, snd ms))
  end.

(** detection.py:563-570 [detect]. *)
Definition api_detect (h : hooks) (major : Z) (c : config) (path : option string) (source : string) (p : parsed)
  : res mins :=
  letr v := api_visit h major c path source p in
  match v with
  | inl m => Ok m
  | inr (e, s) => mapr fst (minimum_versions e s)
  end.
