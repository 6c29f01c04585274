(** Specifications for the aggregation over files and the final report (C51-C58). *)
From Verif Require Import PyBase Utility RulesData Rules Config Formats AstKinds Ast State Visitor MinVersions Parser
  Pool Processor Spec_Base Spec_Utility Spec_Rules Spec_MinVersions.

(** [rs] are the results of the files [paths], none of which ends in an exception. *)
Definition analysed (h : hooks) (major : Z) (c : config) (file : string -> fcontent) (how : string -> ending)
           (paths : list string) (rs : list (option presult)) : Prop :=
  Forall2 (fun p r => snd (process_individual h major c p (file p) (how p)) = Ok r) paths rs.

(** No tour was interrupted halfway (C58). *)
Definition toured (rs : list (option presult)) : Prop := forall r, In (Some r) rs -> r_mins r <> MEmpty.

(** [r] is one of the results and has versions [m]. *)
Definition counted (rs : list (option presult)) (r : presult) (m : mins) : Prop := In (Some r) rs /\ r_mins r = MVers m.
Definition verdict_in (rs : list (option presult)) (m : mins) : Prop := exists r, counted rs r m.

(** No file is for Python 2 only while another one is for Python 3 only. *)
Definition compatible (rs : list (option presult)) : Prop :=
  forall a b, verdict_in rs a -> verdict_in rs b -> ~ clashing a b.

(** Every file's verdict can be counted. *)
Definition combinable (c : config) (rs : list (option presult)) : Prop :=
  c_ignore_incomp c = true \/ compatible rs.

(** The hints a summary gives, file by file; lists are compared as sets. *)
Record summarises (rs : list (option presult)) (s : summary) : Prop := {
  sum_unique : forall v, In v (m_unique s) <->
    ver_lt (0, 0) v /\ exists m, verdict_in rs m /\ (fst m = Some v \/ snd m = Some v);
  sum_bps : forall b, In b (m_bps s) <-> exists r m, counted rs r m /\ In b (r_bps r);
  sum_novm : m_novm s = true <-> exists r m, counted rs r m /\ r_novermin r <> [];
  sum_maybe : m_maybe s = true <-> exists r m, counted rs r m /\ r_maybe r = true
}.

(** Strictly increasing versions. *)
Inductive increasing : list ver -> Prop :=
| inc_nil : increasing []
| inc_one v : increasing [v]
| inc_cons v w l : ver_lt v w -> increasing (w :: l) -> increasing (v :: w :: l).

(** The verdicts among the results, in order. *)
Inductive verdicts : list (option presult) -> list mins -> Prop :=
| vd_nil : verdicts [] []
| vd_take r m rs l : r_mins r = MVers m -> verdicts rs l -> verdicts (Some r :: rs) (m :: l)
| vd_other x rs l : (forall r m, x = Some r -> r_mins r <> MVers m) -> verdicts rs l -> verdicts (x :: rs) l.

(** The files taken into account when verdicts clash: each one that does not clash with the join of
    those taken before it. *)
Inductive greedy : mins -> list mins -> mins -> Prop :=
| gr_done m : greedy m [] m
| gr_take m v j l r : ~ clashing m v -> is_mins_join m v j -> greedy j l r -> greedy m (v :: l) r
| gr_skip m v l r : clashing m v -> greedy m l r -> greedy m (v :: l) r.

(** The rules a file triggers: those of what a visit of its tree records, or the verdict on source
    that does not parse. *)
Inductive file_rule (h : hooks) (major : Z) (c : config) (file : string -> fcontent) (p : string) : mins -> Prop :=
| fr_tree source ps node nov e s m : file p = FcSource source ps -> parser_detect major c ps = DTree node nov ->
    make_visitor h c p source nov = Ok e -> tour e node = Ok s -> triggered (c_backports c) s m ->
    file_rule h major c file p m
| fr_syntax source ps m printed : file p = FcSource source ps -> parser_detect major c ps = DVerdict m printed ->
    file_rule h major c file p m.

(** Files that cannot be read, or whose source CPython refuses for another reason than its syntax. *)
Inductive fails (major : Z) (c : config) (file : string -> fcontent) (p : string) : perr -> Prop :=
| fails_open x : file p = FcErr x -> fails major c file p x
| fails_parse source ps x : file p = FcSource source ps -> parser_detect major c ps = DExn x -> fails major c file p x.

(** What can be said of the verdict of a run: versions of their own major or unknown, and a report
    position that identifies its major ([major]: the major of the running interpreter). *)
Definition report_ok (m : mins) : Prop :=
  wf_part 2 (fst m) /\ wf_part 3 (snd m) /\ (fst m = None -> snd m = None \/ names_version (snd m)).

(** Two summaries with the same result; whether some files were left out apart, and hints compared
    as sets. *)
Record same_result (s t : summary) : Prop := {
  same_mins : m_mins s = m_mins t;
  same_unique : m_unique s = m_unique t;
  same_bps : forall b, In b (m_bps s) <-> In b (m_bps t);
  same_novm : m_novm s = m_novm t;
  same_maybe : m_maybe s = m_maybe t
}.

(** ** The final report *)

(** How the verdict of a run is to be shown: each part in the style of its own major. *)
Inductive shows_minimum : mins -> string -> Prop :=
| sm_both a b s t : writes 2 (Some a) s -> writes 3 (Some b) t -> shows_minimum (Some a, Some b) (s +++ ", " +++ t)
| sm_two a s : writes 2 (Some a) s -> shows_minimum (Some a, None) s
| sm_three b t : writes 3 (Some b) t -> shows_minimum (None, Some b) t.

(** The majors nothing is known about. *)
Inductive shows_unknown : mins -> string -> Prop :=
| su_both : shows_unknown (Some (0, 0), Some (0, 0)) "2 or 3"
| su_two o : o <> Some (0, 0) -> shows_unknown (Some (0, 0), o) "2"
| su_three o : o <> Some (0, 0) -> shows_unknown (o, Some (0, 0)) "3".

(** The majors it cannot run on. *)
Inductive shows_incompatible : mins -> string -> Prop :=
| si_both : shows_incompatible (None, None) "2, 3"
| si_two v : shows_incompatible (None, Some v) "2"
| si_three v : shows_incompatible (Some v, None) "3".

(** [v] is a version the run requires. *)
Definition required (m : mins) (v : ver) : Prop := fst m = Some v \/ snd m = Some v.

(** Every target is met by the version required for its major. *)
Definition targets_met (targets : list target) (m : mins) : Prop :=
  forall t, In t targets -> exists v, required m v /\ target_ok t v.

(** Nothing at all was detected. *)
Definition nothing_detected (m : mins) : Prop :=
  (exists v, required m v) /\ forall v, required m v -> v = (0, 0).

(** A successful run, as the help describes it. *)
Definition success (c : config) (m : mins) : Prop :=
  c_targets c = [] \/ targets_met (c_targets c) m \/ (c_only_show_violations c = true /\ nothing_detected m).
