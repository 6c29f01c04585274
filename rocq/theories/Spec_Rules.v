(** Specifications for the rule tables and backports (C13-C15). *)
From Verif Require Import PyBase Utility RulesData Rules Spec_Base.

(** A requirement part of major line [n]: absent, unknown or n.x. *)
Definition wf_part (n : Z) (o : option ver) : Prop :=
  match o with
  | None => True
  | Some v => v = (0, 0) \/ (fst v = n /\ 0 <= snd v)
  end.
(** A rule that excludes one major names a version of the other. *)
Definition names_version (o : option ver) : Prop := exists v, o = Some v /\ v <> (0, 0).
Definition wf_mins (m : mins) : Prop :=
  wf_part 2 (fst m) /\ wf_part 3 (snd m) /\
  (fst m = None -> names_version (snd m)) /\ (snd m = None -> names_version (fst m)).

(** Every requirement that a table can give when the backports [bps] are enabled. *)
Definition table_reqs {K} (bps : list string) (l : list (K * reqx)) : list mins :=
  map (fun kr => req_eval bps (snd kr)) l.

(** The names of the encodings of all encoding rules. *)
Definition enc_names (k : enckey) : list string :=
  match k with EncNames l => l | EncSubstr s => [s] end.

(** Rank of a backport variant of the module [n]: the unversioned name ranks above every
    versioned one, which rank by version. *)
Inductive rank : Set := Top | At (v : ver).
Definition rank_le (a b : rank) : Prop :=
  match a, b with
  | _, Top => True
  | Top, At _ => False
  | At v, At w => ver_le v w
  end.
Inductive variant (n : string) : string -> rank -> Prop :=
| variant_plain : variant n n Top
| variant_versioned v : variant n (n +++ "==" +++ ver_str v) (At v).

(** Module names do not contain "=". *)
Definition module_name (n : string) : Prop := forall c, In c (list_ascii_of_string n) -> c <> "="%char.

(** [e] is the entry of the newest enabled variant of [n]. *)
Definition newest (n : string) (bps : list string) (e : string * string * mins) : Prop :=
  exists r, In e backports_table /\ In (bp_name e) bps /\ variant n (bp_name e) r /\
  forall e' r', In e' backports_table -> In (bp_name e') bps -> variant n (bp_name e') r' -> rank_le r' r.
Definition none_enabled (n : string) (bps : list string) : Prop :=
  forall e r, In e backports_table -> In (bp_name e) bps -> ~ variant n (bp_name e) r.

(** [m] is the module [n] with a version: [n==...]. Names are letters, digits, underscores and dots. *)
Definition name_char (c : ascii) : Prop :=
  (48 <= code c <= 57) \/ (65 <= code c <= 90) \/ (97 <= code c <= 122) \/ c = "_"%char \/ c = "."%char.
Definition versioned (m n : string) : Prop :=
  n <> "" /\ (forall c, In c (list_ascii_of_string n) -> name_char c) /\
  exists c r, m = n +++ "==" +++ String c r /\ c <> ascii_of_nat 10.

(** What a rule expression is worth when the backports [bps] are enabled: the versions it writes
    down, those of the newest enabled variant of the backport it names, or those of the branch for
    the backport it asks about. *)
Inductive worth (bps : list string) : reqx -> mins -> Prop :=
| worth_written m : worth bps (RConst m) m
| worth_variant n d e : newest n bps e -> worth bps (RBpv n d) (bp_mins e)
| worth_default n d : none_enabled n bps -> worth bps (RBpv n d) d
| worth_without n a b m : ~ In n bps -> worth bps a m -> worth bps (RIfNot n a b) m
| worth_with n a b m : In n bps -> worth bps b m -> worth bps (RIfNot n a b) m.
