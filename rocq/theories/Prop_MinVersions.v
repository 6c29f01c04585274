(** C35, C36, C45, C46: the verdict on one visited source. *)
From Verif Require Import PyBase PyLemmas Utility RulesData Rules Config Formats Paths AstKinds Ast State Visitor
  MinVersions Spec_Base Spec_Rules Spec_MinVersions Proof_MinVersions.

(** A visitor with the default configuration, and one that ignores incompatibilities. *)
Definition env0 : env := mkEnv (default_config 1) "a.py" None [] (fun _ _ => Ok false) (fun _ => "").
Definition env_ign : env :=
  mkEnv (w_ignore_incomp true (default_config 1)) "a.py" None [] (fun _ _ => Ok false) (fun _ => "").

(** ** C35 *)
(** The verdict is the join of the triggered rules. *)
Theorem c35_join : forall e s m s', minimum_versions e s = Ok (m, s') -> is_join_of (triggered (bps_of e) s) m.
Proof. exact join_of. Qed.
Print Assumptions c35_join.

(** Per major: ruled out exactly when a rule rules it out, otherwise the largest version asked for. *)
Theorem c35_per_major : forall e s m s', minimum_versions e s = Ok (m, s') ->
  (fst m = None <-> exists r, triggered (bps_of e) s r /\ fst r = None) /\
  (snd m = None <-> exists r, triggered (bps_of e) s r /\ snd r = None) /\
  (forall v, fst m = Some v -> (v = (0, 0) \/ exists r, triggered (bps_of e) s r /\ fst r = Some v) /\
     forall r w, triggered (bps_of e) s r -> fst r = Some w -> ver_le w v) /\
  (forall v, snd m = Some v -> (v = (0, 0) \/ exists r, triggered (bps_of e) s r /\ snd r = Some v) /\
     forall r w, triggered (bps_of e) s r -> snd r = Some w -> ver_le w v).
Proof. exact per_major. Qed.
Print Assumptions c35_per_major.

(** There is a verdict or an incompatibility. *)
Theorem c35_total : forall e s, targets_given (e_cfg e) -> str_encodings s ->
  (exists m s', minimum_versions e s = Ok (m, s')) \/ (exists msg, minimum_versions e s = Err (InvalidVersion msg)).
Proof. exact total. Qed.
Print Assumptions c35_total.

(** The incompatibility: a rule for Python 2 only together with one for Python 3 only. *)
Theorem c35_raises_iff : forall e s, targets_given (e_cfg e) -> str_encodings s -> c_ignore_incomp (e_cfg e) = false ->
  ((exists msg, minimum_versions e s = Err (InvalidVersion msg)) <->
   exists a b, triggered (bps_of e) s a /\ triggered (bps_of e) s b /\ py2_only a /\ py3_only b).
Proof. exact raises_iff. Qed.
Print Assumptions c35_raises_iff.

Theorem c35_ignored : forall e s, targets_given (e_cfg e) -> str_encodings s -> c_ignore_incomp (e_cfg e) = true ->
  exists m s', minimum_versions e s = Ok (m, s').
Proof. exact ignored. Qed.
Print Assumptions c35_ignored.

(** What a verdict can look like, and that both majors are ruled out only when ignoring. *)
Theorem c35_verdict_ok : forall e s m s', minimum_versions e s = Ok (m, s') ->
  verdict_ok m /\ (c_ignore_incomp (e_cfg e) = false -> m <> (None, None)).
Proof. intros e s m s' H. split; [eapply verdict_wf; eauto | intros I; eapply verdict_possible; eauto]. Qed.
Print Assumptions c35_verdict_ok.

(** A source with f-strings, a set literal and argparse; one that has a long literal too. *)
Definition st35 : st := u_modules ["argparse"] (u_flags [FFstrings; FSetLiterals] init_st).
Definition st35_clash : st := u_flags [FFstrings; FLongV2] init_st.
Example c35_case :
  (exists s', minimum_versions env0 st35 = Ok ((None, Some (3, 6)), s')) /\
  targets_given (e_cfg env0) /\ str_encodings st35_clash /\
  (exists msg, minimum_versions env0 st35_clash = Err (InvalidVersion msg)) /\
  (exists s', minimum_versions env_ign st35_clash = Ok ((None, None), s')).
Proof.
  split; [eexists; vm_compute; reflexivity|]. split; [intros H; discriminate|]. split; [intros v []|].
  split; eexists; vm_compute; reflexivity.
Qed.

(** ** C36 *)
Theorem c36_documented : forall e s m s' f d, minimum_versions e s = Ok (m, s') ->
  In f (s_flags s) -> documented f d -> mins_le d m.
Proof. intros e s m s' f d H I D. apply (join_of e s m s' H). eapply trig_feature; eauto. Qed.
Print Assumptions c36_documented.

(** One documented minimum per construct; the other three facts a visit can record are hints. *)
Theorem c36_table : forall f, f <> FModuleDir -> f <> FModuleGetattr -> f <> FMaybeAnnotations ->
  exists d, documented f d /\ forall d', documented f d' -> d' = d.
Proof.
  intros f A B C. destruct (documented_total f A B C) as [d D]. exists d. split; auto.
  intros d' D'. eapply documented_fun; eauto.
Qed.
Print Assumptions c36_table.

(** The verdict of a source with that construct only is the documented minimum. *)
Theorem c36_alone : forall e s m s' f d, minimum_versions e s = Ok (m, s') ->
  (forall r, triggered (bps_of e) s r <-> documented f r) -> documented f d -> m = d.
Proof. exact alone. Qed.
Print Assumptions c36_alone.

Theorem c36_nothing : forall e s m s', minimum_versions e s = Ok (m, s') ->
  (forall v, ~ triggered (bps_of e) s v) -> m = zero_mins.
Proof. exact nothing. Qed.
Print Assumptions c36_nothing.

Definition st36 (f : flag) : st := u_flags [f] init_st.
Example c36_case :
  (exists s', minimum_versions env0 (st36 FDictUnion) = Ok ((None, Some (3, 9)), s')) /\
  documented FDictUnion (None, Some (3, 9)) /\
  (forall r, triggered (bps_of env0) (st36 FDictUnion) r <-> documented FDictUnion r) /\
  (exists s', minimum_versions env0 init_st = Ok (zero_mins, s')) /\
  (forall r, ~ triggered (bps_of env0) init_st r).
Proof.
  split; [eexists; vm_compute; reflexivity|]. split; [apply doc_dict_union|]. split.
  - intros r. split.
    + intros T. destruct T as [f m I D|d m I J|d m I J|d m I J|n m I J|n k m I J E|n m I J|n m I J|f k m I J|n m I J];
        cbn in I; try contradiction. destruct I as [<-|[]]. exact D.
    + intros D. eapply trig_feature; [left; reflexivity|exact D].
  - split; [eexists; vm_compute; reflexivity|]. intros r T.
    destruct T as [f m I D|d m I J|d m I J|d m I J|n m I J|n k m I J E|n m I J|n m I J|f k m I J|n m I J]; destruct I.
Qed.

(** ** C45 *)
Theorem c45_same_versions : forall e s m s', minimum_versions e s = Ok (m, s') ->
  exists s'', minimum_versions e s' = Ok (m, s'').
Proof. intros e s m s' H. destruct (minimum_versions_again e s m s' H) as (s'' & H' & _). eauto. Qed.
Print Assumptions c45_same_versions.

(** And no new lines: unless dumping nodes, the text of the file is the same too. *)
Theorem c45_same_text : forall e s m s', c_print_visits (e_cfg e) = false -> minimum_versions e s = Ok (m, s') ->
  forall m' s'', minimum_versions e s' = Ok (m', s'') -> m' = m /\ output_text e s'' = output_text e s'.
Proof.
  intros e s m s' P H m' s'' H'. destruct (minimum_versions_again e s m s' H) as (t & H2 & _).
  rewrite H' in H2. injection H2 as -> <-. split; auto. eapply text_again; eauto.
Qed.
Print Assumptions c45_same_text.

Definition env_verbose : env :=
  mkEnv (w_verbose 2 (default_config 1)) "a.py" None [] (fun _ _ => Ok false) (fun _ => "").
Example c45_case : exists s' s'', c_print_visits (e_cfg env_verbose) = false /\
  minimum_versions env_verbose st35 = Ok ((None, Some (3, 6)), s') /\
  minimum_versions env_verbose s' = Ok ((None, Some (3, 6)), s'') /\
  output_text env_verbose s'' = "'argparse' module requires 2.7, 3.2" +++ nl /\ s_out s'' <> s_out s'.
Proof.
  do 2 eexists. split; [reflexivity|]. split; [vm_compute; reflexivity|]. split; [vm_compute; reflexivity|].
  split; [vm_compute; reflexivity | vm_compute; discriminate].
Qed.

(** ** C46 *)
(** Where the code agrees with the claim: names that are no proper part of a rule's only name. *)
Theorem c46_by_name_partial : forall e s n m s', only_encoding s n -> ~ proper_part (lower n) ->
  minimum_versions e s = Ok (m, s') ->
  is_join_of (fun v => exists k, In (k, v) codecs_encodings_reqs /\ by_name k (lower n)) m.
Proof. exact encoding_by_name. Qed.
Print Assumptions c46_by_name_partial.

(** The rule the code follows: a name alone in its rule is also triggered by each of its parts. *)
Theorem c46_covers : forall e s n m s', only_encoding s n -> minimum_versions e s = Ok (m, s') ->
  is_join_of (fun v => exists k, In (k, v) codecs_encodings_reqs /\ covers k (lower n)) m.
Proof. exact only_encoding_join. Qed.
Print Assumptions c46_covers.

(** So the encoding "x", and the empty one, are taken for hexadecimal. *)
Theorem c46_by_name_refuted : exists e s n m s', only_encoding s n /\ minimum_versions e s = Ok (m, s') /\
  (forall k v, In (k, v) codecs_encodings_reqs -> ~ by_name k (lower n)) /\ m <> zero_mins.
Proof.
  exists env0, (u_cencs [VStr "x"] init_st), "x". do 2 eexists.
  split; [repeat split; reflexivity|]. split; [vm_compute; reflexivity|]. split; [|discriminate].
  intros k v I. simpl in I. repeat (destruct I as [I|I]; [injection I as <- _; vm_compute; intuition discriminate|]). destruct I.
Qed.
Print Assumptions c46_by_name_refuted.

Definition st46 : st := u_cencs [VStr "HEX_codec"] init_st.
Example c46_case : only_encoding st46 "HEX_codec" /\ ~ proper_part (lower "HEX_codec") /\
  exists s', minimum_versions env0 st46 = Ok ((None, Some (3, 2)), s').
Proof.
  split; [repeat split|]. split.
  - intros (k & a & b & m & I & E & N). apply (not_part _ k a b m) in E; auto. simpl. lia.
  - eexists. vm_compute. reflexivity.
Qed.
