(** Properties C13-C15: rule tables and backports. *)
From Verif Require Import PyBase PyLemmas Utility RulesData Rules Spec_Base Spec_Rules Proof_Rules.

(** ** C13 *)
Theorem c13_module_rules_wf : forall bps m r, mod_req bps m = Some r -> wf_mins r.
Proof. exact mod_req_wf. Qed.
Print Assumptions c13_module_rules_wf.

Theorem c13_member_rules_wf : forall bps m r, mem_req bps m = Some r -> wf_mins r.
Proof. exact mem_req_wf. Qed.
Print Assumptions c13_member_rules_wf.

Theorem c13_kwarg_rules_wf : forall bps k r, kwarg_req bps k = Some r -> wf_mins r.
Proof. exact kwarg_req_wf. Qed.
Print Assumptions c13_kwarg_rules_wf.

(** The tables that do not depend on backports. *)
Theorem c13_other_rules_wf : forall m,
  In m (map snd strftime_reqs ++ map snd bytes_reqs ++ map snd array_typecode_reqs ++
        map snd codecs_error_handlers_reqs ++ map snd decorator_user_functions ++
        map snd codecs_encodings_reqs ++ map bp_mins backports_table) -> wf_mins m.
Proof. exact small_tables_wf. Qed.
Print Assumptions c13_other_rules_wf.

Theorem c13_module_keys_unique : NoDup (map fst mod_reqs_x).
Proof. exact mod_keys_nodup. Qed.
Print Assumptions c13_module_keys_unique.

Theorem c13_member_keys_unique : NoDup (map fst mod_mem_reqs_x).
Proof. exact mem_keys_nodup. Qed.
Print Assumptions c13_member_keys_unique.

Theorem c13_kwarg_keys_unique : NoDup (map fst kwargs_reqs_x).
Proof. exact kwargs_keys_nodup. Qed.
Print Assumptions c13_kwarg_keys_unique.

Theorem c13_other_keys_unique :
  NoDup (map fst strftime_reqs) /\ NoDup (map fst bytes_reqs) /\ NoDup (map fst array_typecode_reqs) /\
  NoDup (map fst codecs_error_handlers_reqs) /\ NoDup (map fst decorator_user_functions) /\
  NoDup (flat_map (fun kv => enc_names (fst kv)) codecs_encodings_reqs) /\
  NoDup (map bp_name backports_table) /\ NoDup (map fst features_table).
Proof. exact small_keys_nodup. Qed.
Print Assumptions c13_other_keys_unique.

(** A rule only names backports that can be enabled. *)
Theorem c13_rules_name_known_backports : forall n,
  In n (flat_map (fun kr => reqx_names (snd kr)) mod_reqs_x ++
        flat_map (fun kr => reqx_names (snd kr)) mod_mem_reqs_x ++
        flat_map (fun kr => reqx_names (snd kr)) kwargs_reqs_x) -> is_backport n = true.
Proof. exact rule_names_known. Qed.
Print Assumptions c13_rules_name_known_backports.

Example c13_example : mod_req [] "argparse" = Some (Some (2, 7), Some (3, 2)) /\
  mod_req ["argparse"] "argparse" = Some (Some (2, 3), Some (3, 1)) /\
  kwarg_req [] ("configparser.ConfigParser", "strict") = Some (None, Some (3, 2)).
Proof. repeat split; vm_compute; reflexivity. Qed.

(** ** C14 *)
Theorem c14_newest_enabled_variant : forall n d bps, module_name n ->
  (exists e, newest n bps e /\ bpv n d bps = bp_mins e) \/ (none_enabled n bps /\ bpv n d bps = d).
Proof. exact bpv_newest. Qed.
Print Assumptions c14_newest_enabled_variant.

Theorem c14_other_backports_irrelevant : forall n d bps bps', module_name n ->
  (forall e r, In e backports_table -> variant n (bp_name e) r ->
     (In (bp_name e) bps <-> In (bp_name e) bps')) ->
  bpv n d bps = bpv n d bps'.
Proof. exact bpv_local. Qed.
Print Assumptions c14_other_backports_irrelevant.

(** The module that a backport is a variant of is its name without the version. *)
Theorem c14_version_suffix : forall m,
  (forall n, versioned m n -> version_filter m = n) /\ ((forall n, ~ versioned m n) -> version_filter m = m).
Proof. exact version_filter_spec. Qed.
Print Assumptions c14_version_suffix.
Example c14_suffix_example : versioned "typing_extensions==4.3" "typing_extensions" /\ version_filter "argparse=1" = "argparse=1".
Proof.
  split; [|reflexivity]. split; [discriminate|]. split.
  - intros c I. apply is_word_dot_iff. revert c I. apply Forall_forall. repeat constructor.
  - exists "4"%char, ".3". split; [reflexivity|discriminate].
Qed.

(** The rules for modules, members and keyword arguments are those written down, and each is worth
    what it says for the enabled backports. *)
Theorem c14_rules_read : forall bps m,
  (forall k, mod_req bps k = Some m <-> exists r, In (k, r) mod_reqs_x /\ worth bps r m) /\
  (forall k, mem_req bps k = Some m <-> exists r, In (k, r) mod_mem_reqs_x /\ worth bps r m) /\
  (forall k, kwarg_req bps k = Some m <-> exists r, In (k, r) kwargs_reqs_x /\ worth bps r m).
Proof. exact rules_worth. Qed.
Print Assumptions c14_rules_read.
Example c14_rules_example : exists a b, a <> b /\ In ("typing.Deque", RIfNot "typing" (RConst a) (RConst b)) mod_mem_reqs_x /\
  worth [] (RIfNot "typing" (RConst a) (RConst b)) a /\ worth ["typing"] (RIfNot "typing" (RConst a) (RConst b)) b.
Proof.
  exists (None, Some (3, 5)), (Some (2, 7), Some (3, 3)). split; [discriminate|].
  split; [|split; [apply worth_without; [intros []|]|apply worth_with; [left; reflexivity|]]; constructor].
  apply (proj1 (assoc_unique _ _ _ _ mem_keys_nodup)). vm_compute. reflexivity.
Qed.

Example c14_example : module_name "typing_extensions" /\
  bpv "typing_extensions" zero_mins ["typing_extensions==4.0"; "typing_extensions==4.3"] = (None, Some (3, 7)) /\
  bpv "typing_extensions" zero_mins ["argparse"; "typing_extensions==4.0"] = (None, Some (3, 6)) /\
  bpv "typing_extensions" zero_mins ["argparse"] = zero_mins.
Proof.
  split; [|repeat split; vm_compute; reflexivity].
  intros c H ->. vm_compute in H. decompose [or] H; try discriminate; auto.
Qed.

(** ** C15: false of the code for typing_extensions, whose requirement without the backport is
    unknown; proved for every other rule and any two nested sets of backports. *)
Theorem c15_backport_never_raises_refuted : exists b m r r',
  is_backport b = true /\ mod_req [] m = Some r /\ mod_req [b] m = Some r' /\ ~ mins_le r' r.
Proof.
  exists "typing_extensions", "typing_extensions", zero_mins, (None, Some (3, 7)).
  repeat split; try (vm_compute; reflexivity). intros [H _]. exact H.
Qed.
Print Assumptions c15_backport_never_raises_refuted.

Theorem c15_module_rules_partial : forall bps bps' m r r', m <> "typing_extensions" ->
  (forall b, In b bps -> In b bps') ->
  mod_req bps m = Some r -> mod_req bps' m = Some r' -> mins_le r' r.
Proof. exact mod_req_mono. Qed.
Print Assumptions c15_module_rules_partial.

Theorem c15_member_rules : forall bps bps' m r r', (forall b, In b bps -> In b bps') ->
  mem_req bps m = Some r -> mem_req bps' m = Some r' -> mins_le r' r.
Proof. exact mem_req_mono. Qed.
Print Assumptions c15_member_rules.

Theorem c15_kwarg_rules : forall bps bps' k r r', (forall b, In b bps -> In b bps') ->
  kwarg_req bps k = Some r -> kwarg_req bps' k = Some r' -> mins_le r' r.
Proof. exact kwarg_req_mono. Qed.
Print Assumptions c15_kwarg_rules.

Example c15_example : mem_req [] "typing.Deque" = Some (None, Some (3, 5)) /\
  mem_req ["typing"] "typing.Deque" = Some (Some (2, 7), Some (3, 3)) /\
  mins_le (Some (2, 7), Some (3, 3)) (None, Some (3, 5)).
Proof. repeat split; try (vm_compute; reflexivity). simpl. right. simpl. lia. Qed.
