(** Specifications for Config (C16-C22). *)
From Coq Require Import Permutation.
From Verif Require Import PyBase Utility RulesData Rules Config Heap Spec_Base Spec_Utility.

(** Configurations that some history of calls on a new Config produces. *)
Inductive reach (cpus : Z) (re_ok : string -> bool) : config -> Prop :=
| reach_new : reach cpus re_ok (default_config cpus)
| reach_step c m : reach cpus re_ok c ->
    (forall o, m = CmdOverrideFrom o -> reach cpus re_ok o) ->
    reach cpus re_ok (run_cmd cpus re_ok c m).

(** What an argument of add_target stands for. *)
Inductive arg_target : target_arg -> target -> Prop :=
| at_str s t : writes_target s t -> in_range (snd t) -> arg_target (TStr s) t
| at_tup v e : arg_target (TTup v e) (e, v)
| at_pair e v : arg_target (TPair e v) (e, v).

(** A history forgets the targets here: cleared, reset or replaced. *)
Definition forgets_targets (m : cmd) : Prop :=
  match m with CmdClearTargets | CmdReset | CmdOverrideFrom _ => True | _ => False end.
Definition forgets_exclusions (m : cmd) : Prop :=
  match m with CmdClearExclusions | CmdReset | CmdOverrideFrom _ => True | _ => False end.
Definition forgets_backports (m : cmd) : Prop :=
  match m with CmdClearBackports | CmdReset | CmdOverrideFrom _ => True | _ => False end.
Definition forgets_features (m : cmd) : Prop :=
  match m with CmdClearFeatures | CmdReset | CmdOverrideFrom _ => True | _ => False end.

(** The call makes [n] an exclusion. *)
Definition adds_exclusion (m : cmd) (n : string) : Prop :=
  match m with
  | CmdAddExclusion x => x = n
  | CmdAddExclusionFile (Some ls) => exists l, In l ls /\ strip l = n
  | CmdOverrideFrom o => In n (c_exclusions_set o)
  | _ => False
  end.
Definition adds_backport (m : cmd) (n : string) : Prop :=
  match m with
  | CmdAddBackport x => x = n /\ In n (map (fun e => fst (fst e)) backports_table)
  | CmdOverrideFrom o => In n (c_backports o)
  | _ => False
  end.
Definition adds_feature (m : cmd) (n : string) : Prop :=
  match m with
  | CmdEnableFeature x => x = n /\ In n (map fst features_table)
  | CmdOverrideFrom o => In n (c_features o)
  | _ => False
  end.

(** [P] was made true by a call of the history and not forgotten since. *)
Definition since (adds : cmd -> Prop) (forgets : cmd -> Prop) (l : list cmd) : Prop :=
  exists l1 m l2, l = l1 ++ m :: l2 /\ adds m /\ Forall (fun x => ~ forgets x) l2.

(** The call makes [t] a target, given how many there are: at most two fit. *)
Definition adds_target (c : config) (m : cmd) (t : target) : Prop :=
  match m with
  | CmdAddTarget a => arg_target a t /\ (List.length (c_targets c) < 2)%nat
  | CmdOverrideFrom o => In t (c_targets o)
  | _ => False
  end.

(** What add_target answers. *)
Definition add_answer (a : target_arg) (c : config) (r : tri) : Prop :=
  (r = RTrue <-> (List.length (c_targets c) < 2)%nat /\ exists t, arg_target a t) /\
  (r = RNone <-> (List.length (c_targets c) < 2)%nat /\
                 exists s, a = TStr s /\ forall t, ~ (writes_target s t /\ in_range (snd t))).

(** Sorted by version. *)
Definition sorted_by_version (l : list target) : Prop :=
  match l with
  | [] | [_] => True
  | [a; b] => ver_le (snd a) (snd b)
  | _ => False
  end.

(** The settings the parsable format needs. *)
Definition parsable_settings (c : config) : Prop :=
  c_format c = FParsable -> 3 <= c_verbose c /\ c_ignore_incomp c = true /\ c_show_tips c = false.

(** Calls that do not undo those settings. *)
Definition keeps_settings (m : cmd) : Prop :=
  match m with
  | CmdVerbose n => 3 <= n | CmdIgnoreIncomp b => b = true | CmdShowTips b => b = false
  | _ => True
  end.

(** Everything the getters answer. *)
Definition same_answers (a b : config) : Prop :=
  c_quiet a = c_quiet b /\ c_verbose a = c_verbose b /\ c_print_visits a = c_print_visits b /\
  c_processes a = c_processes b /\ c_ignore_incomp a = c_ignore_incomp b /\
  c_pessimistic a = c_pessimistic b /\ c_show_tips a = c_show_tips b /\
  c_analyze_hidden a = c_analyze_hidden b /\ exclusions a = exclusions b /\
  exclusion_regex a = exclusion_regex b /\
  (forall n, is_excluded a n = is_excluded b n) /\
  (forall f k, is_excluded_kwarg a f k = is_excluded_kwarg b f k) /\
  (forall n, is_excluded_ceh a n = is_excluded_ceh b n) /\
  (forall n, is_excluded_ce a n = is_excluded_ce b n) /\
  (forall s p, is_excluded_by_regex s a p = is_excluded_by_regex s b p) /\
  c_make_paths_absolute a = c_make_paths_absolute b /\ c_backports a = c_backports b /\
  c_features a = c_features b /\ c_targets a = c_targets b /\
  c_eval_annotations a = c_eval_annotations b /\
  c_only_show_violations a = c_only_show_violations b /\ c_parse_comments a = c_parse_comments b /\
  c_scan_symlink_folders a = c_scan_symlink_folders b /\ c_format a = c_format b.

(** Sets inside a Config have no duplicates. *)
Definition sets_ok (c : config) : Prop :=
  NoDup (c_exclusions_set c) /\ NoDup (c_exclusion_regex_set c).

(** Calls that change an object which override_from shares. *)
Definition touches_shared (m : cmd) : Prop :=
  match m with
  | CmdAddBackport _ | CmdClearBackports | CmdEnableFeature _ | CmdClearFeatures | CmdAddTarget _ => True
  | CmdOverrideFrom _ => True
  | _ => False
  end.

(** No object shared by [a] and [b] (format objects aside, which only the getter of b reads). *)
Definition apart (h : heap) (a b : nat) : Prop :=
  h_bps (hp_conf h a) <> h_bps (hp_conf h b) /\ h_feats (hp_conf h a) <> h_feats (hp_conf h b) /\
  h_bps (hp_conf h a) <> h_feats (hp_conf h b) /\ h_feats (hp_conf h a) <> h_bps (hp_conf h b) /\
  h_tgts (hp_conf h a) <> h_tgts (hp_conf h b).

(** References below the allocation point, for the objects of interest; the two sets of one Config
    are different objects. *)
Definition obj_ok (h : heap) (a : nat) : Prop :=
  (h_bps (hp_conf h a) < hp_next h /\ h_feats (hp_conf h a) < hp_next h /\
   h_tgts (hp_conf h a) < hp_next h /\ h_fmt (hp_conf h a) < hp_next h)%nat /\
  h_bps (hp_conf h a) <> h_feats (hp_conf h a).

(** ** Config files *)

(** What a boolean option text says; [d] is the default's text. *)
Definition says_bool (v d : string) (b : bool) : Prop :=
  (In (lower v) ["1"; "yes"; "true"; "on"] /\ b = true) \/
  (In (lower v) ["0"; "no"; "false"; "off"] /\ b = false) \/
  (~ In (lower v) ["1"; "yes"; "true"; "on"; "0"; "no"; "false"; "off"] /\ (b = true <-> d = "True")).

Definition bool_opt (sec : section) (o : string) (b : bool) : Prop :=
  exists v d, sec_get sec o = Ok (Some v) /\ sec_default sec o = Some d /\ says_bool v d b.

Definition uint_opt (sec : section) (o : string) (n : Z) : Prop :=
  exists v, sec_get sec o = Ok (Some v) /\
  ((v <> "" /\ py_int v = Some n /\ 0 <= n) \/
   (v = "" /\ exists d, sec_default sec o = Some d /\ py_int d = Some n)).

Definition list_opt (sec : section) (o : string) (l : list string) : Prop :=
  exists v, sec_get sec o = Ok (Some v) /\ l = splitlines (strip v).

Definition same_set (a b : list string) : Prop := forall x, In x a <-> In x b.

(** Lines of the targets option: each a valid target, at most two. *)
Definition target_lines (l : list string) (ts : list target) : Prop :=
  (List.length l <= 2)%nat /\ Forall2 (fun s t => writes_target s t /\ in_range (snd t)) l ts.

Definition format_opt (sec : section) (f : fmt) : Prop :=
  exists v, sec_get sec "format" = Ok (Some v) /\
  ((strip v = "default" /\ f = FDefault) \/ (strip v = "parsable" /\ f = FParsable)).

(** The section says that the configuration is [c]. *)
Definition section_says (cpus : Z) (re_ok : string -> bool) (sec : section) (c : config) : Prop :=
  bool_opt sec "quiet" (c_quiet c) /\ bool_opt sec "print_visits" (c_print_visits c) /\
  bool_opt sec "pessimistic" (c_pessimistic c) /\ bool_opt sec "analyze_hidden" (c_analyze_hidden c) /\
  bool_opt sec "eval_annotations" (c_eval_annotations c) /\
  bool_opt sec "only_show_violations" (c_only_show_violations c) /\
  bool_opt sec "parse_comments" (c_parse_comments c) /\
  bool_opt sec "scan_symlink_folders" (c_scan_symlink_folders c) /\
  bool_opt sec "make_paths_absolute" (c_make_paths_absolute c) /\
  (exists p, uint_opt sec "processes" p /\ (c_processes c = if 0 <? p then p else cpus)) /\
  (exists l, list_opt sec "exclusions" l /\ same_set (c_exclusions_set c) l) /\
  (exists l, list_opt sec "exclusion_regex" l /\ same_set (c_exclusion_regex_set c) l /\
             forall x, In x l -> re_ok x = true) /\
  (exists l, list_opt sec "backports" l /\ same_set (c_backports c) l /\
             forall x, In x l -> In x (map (fun e => fst (fst e)) backports_table)) /\
  (exists l, list_opt sec "features" l /\ same_set (c_features c) l /\
             forall x, In x l -> In x (map fst features_table)) /\
  (exists l ts, list_opt sec "targets" l /\ target_lines l ts /\
             Permutation (c_targets c) ts /\ sorted_by_version (c_targets c)) /\
  (exists v i s, uint_opt sec "verbose" v /\ bool_opt sec "ignore_incomp" i /\ bool_opt sec "show_tips" s /\
     format_opt sec (c_format c) /\
     match c_format c with
     | FDefault => c_verbose c = v /\ c_ignore_incomp c = i /\ c_show_tips c = s
     | FParsable => c_verbose c = Z.max 3 v /\ c_ignore_incomp c = true /\ c_show_tips c = false
     end).

(** ** Finding a config file *)

(** [f] is searched when starting at [start]: the start folder, or the parent of a searched folder
    without a project boundary. *)
Inductive searched (exists_in : list string -> string -> bool) : list string -> list string -> Prop :=
| se_start f : searched exists_in f f
| se_up d f g : (forall b, In b [".bzr"; ".fslckout"; ".git"; ".hg"; ".p4root"; ".pijul"; ".svn"; "_darcs"] ->
                           exists_in (d :: f) b = false) ->
                searched exists_in f g -> searched exists_in (d :: f) g.

(** A candidate that ends the search: it has the section, or reading it raises something other than
    ParsingError. *)
Definition stops (p : probe) : Prop := p = PrSection \/ p = PrOtherError.

(** [n] in folder [f] is the first candidate that ends the search: file names in the documented
    order, folders from the start folder upwards. *)
Definition first_hit (candidate : list string -> string -> probe) (exists_in : list string -> string -> bool)
           (start f : list string) (n : string) : Prop :=
  searched exists_in start f /\ stops (candidate f n) /\
  (exists a b, ["vermin.ini"; "vermin.conf"; ".vermin"; "setup.cfg"] = a ++ n :: b /\
     forall x, In x a -> ~ stops (candidate f x)) /\
  (forall g, searched exists_in start g -> (List.length f < List.length g)%nat ->
     forall x, In x ["vermin.ini"; "vermin.conf"; ".vermin"; "setup.cfg"] -> ~ stops (candidate g x)).

(** The options of the vermin section (config.py:113-132). *)
Definition option_names : list string :=
  ["quiet"; "verbose"; "print_visits"; "processes"; "ignore_incomp"; "pessimistic"; "show_tips";
   "analyze_hidden"; "exclusions"; "exclusion_regex"; "make_paths_absolute"; "backports"; "features";
   "targets"; "eval_annotations"; "only_show_violations"; "parse_comments"; "scan_symlink_folders";
   "format"].
Definition has_defaults (sec : section) : Prop :=
  forall o, In o option_names -> exists d, sec_default sec o = Some d.
