(** Model of /repo/vermin/backports.py, features.py and the rule lookups of rules.py. *)
From Verif Require Import PyBase Utility RulesData.

Definition bp_name (e : string * string * mins) : string := fst (fst e).
Definition bp_mins (e : string * string * mins) : mins := snd e.

(** backports.py:40-42 [Backports.modules]. *)
Definition backport_modules : list string := map bp_name backports_table.

(** backports.py:44-46 [Backports.is_backport]. *)
Definition is_backport (m : string) : bool := mem m backport_modules.

(** [\w] or a dot: the class of VERSIONED_BACKPORT_REGEX (backports.py:5), ASCII. *)
Definition is_word (c : ascii) : bool :=
  let n := code c in
  is_digit c || ((65 <=? n) && (n <=? 90)) || ((97 <=? n) && (n <=? 122)) || (n =? 95).
Definition is_word_dot (c : ascii) : bool := is_word c || Ascii.eqb c ".".

Fixpoint span (f : ascii -> bool) (s : string) : string * string :=
  match s with
  | EmptyString => ("", "")
  | String c r => if f c then let (a, b) := span f r in (String c a, b) else ("", s)
  end.

(** backports.py:48-53 [Backports.version_filter]: group 1 of the regex, or the name itself. *)
Definition version_filter (m : string) : string :=
  let (a, b) := span is_word_dot m in
  if negb (String.eqb a "") && startswith "==" b && negb (String.eqb (upto_newline (sdrop 2 b)) "")
  then a else m.

(** backports.py:55-57 [Backports.unversioned_filter] (a set). *)
Definition unversioned_filter (l : list string) : list string := dedup (map version_filter l).

(** backports.py:59-64 [Backports.expand_versions]. *)
Definition expand_versions (m : string) : list (string * string * mins) :=
  rev (filter (fun e => String.eqb (version_filter (bp_name e)) m) backports_table).

(** backports.py:34-38 [Backports.str]; [titles] is always all modules. *)
Definition backports_str (indent : nat) (bps : list (string * string * mins)) : res string :=
  format_title_descs
    (map (fun e => (bp_name e, [snd (fst e) +++ " (" +++ mins_str ", " (bp_mins e) +++ ")"])) bps)
    backport_modules indent.

(** features.py:19-21 [Features.features], features.py:23-25 [Features.is_feature]. *)
Definition feature_names : list string := map fst features_table.
Definition is_feature (f : string) : bool := mem f feature_names.

(** features.py:15-17 [Features.str]. *)
Definition features_str (indent : nat) : res string :=
  format_title_descs features_table feature_names indent.

(** rules.py:3-5 [bp]: [bps] are the enabled backports of the configuration. *)
Definition bp (name : string) (bps : list string) : bool := mem name bps.

(** The loop of [bpv] (rules.py:10-13). *)
Fixpoint bpv_loop (l : list (string * string * mins)) (default : mins) (bps : list string) : mins :=
  match l with
  | [] => default
  | e :: r => if bp (bp_name e) bps then bp_mins e else bpv_loop r default bps
  end.

(** rules.py:7-14 [bpv]. *)
Definition bpv (name : string) (default : mins) (bps : list string) : mins :=
  bpv_loop (expand_versions name) default bps.

(** Value of a rule expression for the enabled backports (the dict displays of rules.py are
    evaluated when a SourceState is made, source_state.py:150-152). *)
Fixpoint req_eval (bps : list string) (r : reqx) : mins :=
  match r with
  | RConst m => m
  | RBpv n d => bpv n d bps
  | RIfNot n yes no => if negb (bp n bps) then req_eval bps yes else req_eval bps no
  end.

(** rules.py:16-196 [MOD_REQS(config)] lookup. A dict display keeps the last of equal keys; that
    the keys are distinct is proved in Proof_Rules.v. *)
Definition mod_req (bps : list string) (m : string) : option mins :=
  option_map (req_eval bps) (assoc m mod_reqs_x).

(** rules.py:199-2852 [MOD_MEM_REQS(config)] lookup. *)
Definition mem_req (bps : list string) (m : string) : option mins :=
  option_map (req_eval bps) (assoc m mod_mem_reqs_x).

(** Lookup with a pair of strings as key. *)
Fixpoint assoc2 {A} (k : string * string) (l : list ((string * string) * A)) : option A :=
  match l with
  | [] => None
  | (k', v) :: r =>
      if String.eqb (fst k) (fst k') && String.eqb (snd k) (snd k') then Some v else assoc2 k r
  end.

(** rules.py:2858-3754 [KWARGS_REQS(config)] lookup. *)
Definition kwarg_req (bps : list string) (k : string * string) : option mins :=
  option_map (req_eval bps) (assoc2 k kwargs_reqs_x).

(** [encoding in encs] of source_visitor.py (CODECS_ENCODINGS keys): tuple membership, or substring
    test when the key is a plain str. *)
Definition enc_matches (k : enckey) (e : string) : bool :=
  match k with
  | EncNames l => mem e l
  | EncSubstr s => contains e s
  end.
