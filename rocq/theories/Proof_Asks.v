(** From what is seen in a source to the verdict on it and on a run. Lemmas for C61. *)
From Verif Require Import PyBase PyLemmas Utility RulesData Rules Config Formats Paths AstKinds Ast State Visitor MinVersions Parser Processor
  Spec_Base Spec_Visitor Spec_Same Spec_MinVersions Spec_Main Spec_Seen Proof_Seen Proof_Reached Proof_MinVersions Proof_Main.

Lemma reached_members e v L n m s r : tour e v = Ok s -> reached e v L n -> mentions e v L n m -> reportable e v m ->
  mem_req [] m = Some r -> In m (s_members s).
Proof.
  intros T S U R Q. apply (reached_mentions e v L n m s T S U R). unfold mem_req in Q.
  destruct (assoc m mod_mem_reqs_x) as [y|] eqn:E; [|discriminate]. exact (assoc_has_key _ _ _ E).
Qed.
Lemma reached_decorators e v L n d s r : tour e v = Ok s -> reached e v L n -> has_decorator e v L n d -> reportable e v d ->
  In (d, r) decorator_user_functions -> In d (s_ufds s).
Proof. intros T S U R Q. exact (reached_decorator e v L n d s T S U R (in_has_key _ _ _ Q)). Qed.
Lemma reached_arguments e v L n s : tour e v = Ok s -> reached e v L n ->
  (forall d, formats_date e n d -> In d (s_strftimes s)) /\
  (forall d, formats_bytes n d -> In d (s_bytesdirs s)) /\
  (forall d, gives_typecode e v L n d -> In d (s_typecodes s)) /\
  (forall c, gives_handler e v L n c -> In c (s_cehs s)) /\
  (forall c, gives_encoding e v L n c -> In c (s_cencs s)).
Proof.
  intros T S. repeat split; intros x U.
  - exact (reached_date _ _ _ _ _ _ T S U).
  - exact (reached_bytes _ _ _ _ _ _ T S U).
  - exact (reached_typecode _ _ _ _ _ _ T S U).
  - exact (reached_handler _ _ _ _ _ _ T S U).
  - exact (reached_encoding _ _ _ _ _ _ T S U).
Qed.
Lemma reached_verdict e v L n r s m s' : tour e v = Ok s -> reached e v L n -> asks e v L (bps_of e) n r ->
  minimum_versions e s = Ok (m, s') -> mins_le r m.
Proof. intros T S A M. exact (proj1 (proj2 (join_of e s m s' M)) r (reached_triggered e v L n (bps_of e) r s T S A)). Qed.

Lemma toured_ok h major c file how paths rs p source ps node nov e :
  analysed h major c file how paths rs -> toured rs -> In p paths -> file p = FcSource source ps ->
  parser_detect major c ps = DTree node nov -> make_visitor h c p source nov = Ok e -> exists s, tour e node = Ok s.
Proof.
  intros A T I F D M. assert (H : exists r, In r rs /\ snd (process_individual h major c p (file p) (how p)) = Ok r).
  { clear - A I. induction A as [|q r ps' rs' H A IH]; [destruct I|]. destruct I as [->|I]; [exists r; split; [left; reflexivity|exact H]|].
    destruct (IH I) as (r' & J & E). exists r'. split; [right; exact J|exact E]. }
  destruct H as (r & J & H). rewrite F in H. unfold process_individual in H. rewrite D in H.
  assert (W : how p <> EndAbort -> mapr Some (process_tree h c p source node nov (how p)) = Ok r).
  { intros N. destruct (how p); try exact H. contradiction. }
  destruct (how p) eqn:Q; try discriminate H; specialize (W ltac:(discriminate)); clear H; unfold process_tree in W; rewrite M in W; cbn in W.
  - destruct (tour e node) as [s|x] eqn:E; [exists s; reflexivity|discriminate].
  - injection W as <-. destruct (T _ J eq_refl).
  - discriminate.
Qed.
Lemma reached_run h major c file how k paths rs out sm p source ps node nov e L n r :
  analysed h major c file how paths rs -> toured rs -> 1 <= k ->
  process h major c file how k paths = (out, Ok sm) -> m_incomp sm = false ->
  In p paths -> file p = FcSource source ps -> parser_detect major c ps = DTree node nov -> make_visitor h c p source nov = Ok e ->
  reached e node L n -> asks e node L (c_backports c) n r -> mins_le r (m_mins sm).
Proof.
  intros A T K P I J F D M S As. destruct (toured_ok _ _ _ _ _ _ _ _ _ _ _ _ _ A T J F D M) as (s & E).
  apply (proj1 (proj2 (end_to_end h major c file how k paths rs out sm A T K P I))). exists p. split; [exact J|].
  eapply fr_tree; try eassumption. exact (reached_triggered e node L n (c_backports c) r s E S As).
Qed.
