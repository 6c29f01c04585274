(** More code and more files. Lemmas for C75. *)
From Verif Require Import PyBase PyLemmas Utility RulesData Rules Config Formats Paths AstKinds Ast State Visitor MinVersions
  Parser Processor Spec_Base Spec_Utility Spec_Seen Spec_Visitor Spec_MinVersions Spec_Main Spec_Same Spec_Fewer Spec_More Proof_Utility Proof_Rules Proof_MinVersions
  Proof_Formats Proof_Main Proof_Tour Proof_Runs Proof_Brackets Proof_Claims Proof_Same Proof_Fewer Proof_Less.

Lemma within_refl s : records_within s s.
Proof. unfold records_within. auto 20 using incl_refl. Qed.
Lemma within_trans s1 s2 s3 : records_within s1 s2 -> records_within s2 s3 -> records_within s1 s3.
Proof.
  intros (A1 & A2 & A3 & A4 & A5 & A6 & A7 & A8 & A9 & A10) (B1 & B2 & B3 & B4 & B5 & B6 & B7 & B8 & B9 & B10).
  unfold records_within. repeat match goal with |- _ /\ _ => split end; eapply incl_tran; eassumption.
Qed.

(** What is recorded stays recorded. *)
Lemma flat_within e U s s' : flat e U s s' -> records_within s s'.
Proof.
  intros F. induction F; try exact (within_trans _ _ _ IHF1 IHF2);
    try (unfold records_within, raise_flag; cbn; repeat match goal with |- _ /\ _ => split end; auto using incl_refl, incl_appl).
  apply incl_tl, incl_refl.
Qed.
Lemma runs_within e T s s' : runs e T s s' -> records_within s s'.
Proof. intros R. exact (flat_within _ _ _ _ (runs_flat e T s s' R)). Qed.

Lemma triggered_within bps s s' r : records_within s s' -> triggered bps s r -> triggered bps s' r.
Proof.
  intros (A1 & A2 & A3 & A4 & A5 & A6 & A7 & A8 & A9 & A10) T.
  destruct T as [f m I D|d m I J|d m I J|d m I J|n m I J|n k m I J E|n m I J|n m I J|f k m I J|n m I J].
  - eapply trig_feature; eauto.
  - eapply trig_strftime; eauto.
  - eapply trig_bytes; eauto.
  - eapply trig_typecode; eauto.
  - eapply trig_handler; eauto.
  - eapply trig_encoding; eauto.
  - eapply trig_module; eauto.
  - eapply trig_member; eauto.
  - eapply trig_kwarg; eauto.
  - eapply trig_deco; eauto.
Qed.

Lemma versions_within e s s' m' t' : targets_given (e_cfg e) -> records_within s s' -> minimum_versions e s' = Ok (m', t') ->
  exists m t, minimum_versions e s = Ok (m, t) /\ mins_le m m'.
Proof.
  intros T L H. assert (S' := ok_str_encodings e s' m' t' H).
  assert (S : str_encodings s) by (intros v I; apply S'; apply L, I).
  assert (V : exists m t, minimum_versions e s = Ok (m, t)).
  { destruct (c_ignore_incomp (e_cfg e)) eqn:I; [exact (ignored e s T S I)|].
    destruct (total e s T S) as [V|V]; [exact V|exfalso]. apply (raises_iff e s T S I) in V as (a & b & A & B & K).
    assert (X : exists msg, minimum_versions e s' = Err (InvalidVersion msg)).
    { apply (raises_iff e s' T S' I). exists a, b. split; [exact (triggered_within _ _ _ _ L A)|]. split; [exact (triggered_within _ _ _ _ L B)|exact K]. }
    destruct X as (msg & X). congruence. }
  destruct V as (m & t & V). exists m, t. split; [exact V|]. destruct (join_of e s' m' t' H) as (Z & U & _).
  apply (join_of e s m t V); [exact Z|]. intros r R. exact (U r (triggered_within _ _ _ _ L R)).
Qed.

(** ** Statements put behind others *)
Lemma each_app {A} (f : A -> act) l r s : each f (l ++ r) s = (each f l >> each f r) s.
Proof.
  revert s. induction l as [|x l IH]; intros s; [reflexivity|]. cbn [app each]. unfold seq at 1 2 3. destruct (f x s) as [s1|]; [|reflexivity].
  rewrite IH. reflexivity.
Qed.
Lemma like_within s s' : like s s' -> records_within s s'.
Proof. intros (o & l & c & ->). exact (within_refl s). Qed.
Lemma like_fields s s' : like s s' -> s_user_defs s' = s_user_defs s /\ records_within s' s.
Proof. intros (o & l & c & ->). split; [reflexivity|exact (within_refl s)]. Qed.

Lemma same_self c : same_analysis c c.
Proof. unfold same_analysis. intuition. Qed.
Lemma sim_self e v : targets_given (e_cfg e) -> sim (visit e v) (visit e v).
Proof.
  destruct e as [c path src nl sd d]. intros T. exact (proj1 (alike_same c c path src nl sd d d (same_self c) T T v)).
Qed.
Lemma sim_stmts e l : targets_given (e_cfg e) -> sim (each (visit e) l) (each (visit e) l).
Proof. intros T. apply sim_each. intros x _. exact (sim_self e x T). Qed.
Lemma visit_tree e u l : visit e (source_tree u l) =
  generic_visit e (source_tree u l) [("body", KList_ (map (sem e) l)); ("type_ignores", KList_ [])].
Proof. reflexivity. Qed.
Lemma each_map {A B} (g : A -> B) (f : B -> act) l s : each f (map g l) s = each (fun x => f (g x)) l s.
Proof. revert s. induction l as [|x l IH]; intros s; [reflexivity|]. cbn [map each]. unfold seq. destruct (f (g x) s); [apply IH|reflexivity]. Qed.

(** The statements are visited in order, from a state in which nothing is recorded. *)
Lemma visit_tree_eq e u l : exists o, visit e (source_tree u l) init_st =
  match each (visit e) l (u_out o (u_depth 1 init_st)) with Ok s => Ok (u_depth (s_depth s - 1) s) | Err x => Err x end.
Proof.
  assert (F : forall s, visit_fields [("body", KList_ (map (sem e) l)); ("type_ignores", KList_ [])] s = each (visit e) l s).
  { intros s. unfold visit_fields. cbn [each snd visit_field]. rewrite <- (each_map (sem e) k_visit).
    unfold seq, nop. destruct (each k_visit (map (sem e) l) s); reflexivity. }
  rewrite visit_tree. unfold generic_visit, source_tree. cbn [pos_of]. unfold seq, nop, upd.
  destruct (c_print_visits (e_cfg e) && negb (c_quiet (e_cfg e))); cbn [when].
  - match goal with |- context [u_out ?o (u_depth (s_depth init_st + 1) init_st)] => exists o end. rewrite F. reflexivity.
  - exists []. unfold nop at 1. rewrite F. reflexivity.
Qed.
Lemma visit_tree_ok e u l s : visit e (source_tree u l) init_st = Ok s ->
  exists s0 s1, like (u_depth 1 init_st) s0 /\ each (visit e) l s0 = Ok s1 /\ s = u_depth (s_depth s1 - 1) s1.
Proof.
  destruct (visit_tree_eq e u l) as (o & ->). destruct (each (visit e) l _) as [s1|] eqn:E; [|discriminate]. intros H. injection H as <-.
  exists (u_out o (u_depth 1 init_st)), s1. split; [|auto]. exists o, (s_line init_st), (s_lcs init_st). reflexivity.
Qed.
Lemma visit_tree_back e u l s0 s1 : targets_given (e_cfg e) -> like (u_depth 1 init_st) s0 -> each (visit e) l s0 = Ok s1 ->
  exists s, visit e (source_tree u l) init_st = Ok s /\ like s (u_depth (s_depth s1 - 1) s1).
Proof.
  intros T L E. destruct (visit_tree_eq e u l) as (o & ->).
  assert (L' : like (u_out o (u_depth 1 init_st)) s0).
  { destruct L as (o1 & l1 & c1 & ->). exists o1, l1, c1. reflexivity. }
  assert (K := sim_stmts e l T _ _ L'). rewrite E in K. destruct (each (visit e) l (u_out o (u_depth 1 init_st))) as [s2|]; [|contradiction].
  eexists. split; [reflexivity|]. destruct K as (o2 & l2 & c2 & ->). exists o2, l2, c2. reflexivity.
Qed.
Lemma each_visit_flat e l : forall s s', each (visit e) l s = Ok s' ->
  flat e (fun n => exists x, In x l /\ below n x) s s'.
Proof.
  induction l as [|x l IH]; intros s s' E; [injection E as <-; apply f_nil|]. cbn [each] in E.
  destruct (seq_ok _ _ _ _ E) as (s1 & E1 & E2). eapply f_cat.
  - refine (flat_mono e _ _ _ _ _ (runs_flat _ _ _ _ (visit_runs e x _ _ E1))). intros n U. exists x. split; [left; reflexivity|exact (own_under _ _ U)].
  - refine (flat_mono e _ _ _ _ _ (IH _ _ E2)). intros n (y & I & B). exists y. split; [right; exact I|exact B].
Qed.
Lemma flat_defs e U s s' y : flat e U s s' -> In y (s_user_defs s') -> In y (s_user_defs s) \/ exists n, U n /\ defines n y.
Proof.
  intros F. induction F; unfold raise_flag; cbn; auto.
  intros I. destruct (IHF2 I) as [J|J]; [exact (IHF1 J)|auto].
Qed.
Lemma stmts_app e l r s s' : each (visit e) (l ++ r) s = Ok s' -> exists s1, each (visit e) l s = Ok s1 /\ each (visit e) r s1 = Ok s'.
Proof. rewrite each_app. apply seq_ok. Qed.

Lemma after_total e s : targets_given (e_cfg e) -> exists s', after_visit_all e s = Ok s'.
Proof.
  intros T. destruct e as [c path src nl sd d]. unfold after_visit_all, rd. generalize (s_user_defs s). intros uds.
  assert (D : forall what get put ud x, exists x', drop_user_def (mkEnv c path src nl sd d) what get put ud x = Ok x').
  { intros what get put ud x. unfold drop_user_def, rd. unfold seq. generalize (filter (String.eqb ud) (get x)). intros l.
    assert (Q : exists x', each (fun _ => vvvv (mkEnv c path src nl sd d) ("Ignoring " +++ what +++ " '" +++ ud +++ "' because it's user-defined!")) l x = Ok x').
    { revert x. induction l as [|z l IH]; intros x; [eexists; reflexivity|]. cbn [each]. unfold seq. unfold vvvv.
      destruct (print_quiet (mkEnv c path src nl sd d) 4 ("Ignoring " +++ what +++ " '" +++ ud +++ "' because it's user-defined!") None None None None x T) as (o & Q).
      rewrite Q. apply IH. }
    destruct Q as (x' & ->). eexists. reflexivity. }
  revert s. induction uds as [|u uds IH]; intros s; [eexists; reflexivity|]. cbn [each]. unfold seq at 1 2.
  destruct (D "module" s_modules u_modules u s) as (x1 & ->). destruct (D "member" s_members u_members u x1) as (x2 & ->). apply IH.
Qed.

Lemma filter_mem_in (l d : list string) y : In y (filter (fun m => negb (mem m d)) l) <-> In y l /\ ~ In y d.
Proof.
  rewrite filter_In, Bool.negb_true_iff. split; intros [I J]; (split; [exact I|]).
  - intros K. apply mem_In in K. congruence.
  - apply Bool.not_true_iff_false. intros K. apply J, mem_In, K.
Qed.
Lemma tour_append e u u' l r s' : targets_given (e_cfg e) -> tour e (source_tree u' (l ++ r)) = Ok s' ->
  exists s, tour e (source_tree u l) = Ok s /\
    incl (s_kwargs s) (s_kwargs s') /\ incl (s_ufds s) (s_ufds s') /\ incl (s_cehs s) (s_cehs s') /\ incl (s_cencs s) (s_cencs s') /\
    incl (s_strftimes s) (s_strftimes s') /\ incl (s_bytesdirs s) (s_bytesdirs s') /\ incl (s_typecodes s) (s_typecodes s') /\
    incl (s_flags s) (s_flags s') /\
    (forall y, In y (s_modules s) -> In y (s_modules s') \/ (In y (s_user_defs s') /\ defined_in r y)) /\
    (forall y, In y (s_members s) -> In y (s_members s') \/ (In y (s_user_defs s') /\ defined_in r y)).
Proof.
  intros T H. unfold tour in H. destruct (seq_ok _ _ _ _ H) as (s2 & V & A2). destruct (after_eq e _ _ A2) as (o2 & ->).
  destruct (visit_tree_ok e u' (l ++ r) s2 V) as (s0 & s1 & L & E & ->).
  destruct (stmts_app e l r s0 s1 E) as (a & Ea & Er).
  destruct (visit_tree_back e u l s0 a T L Ea) as (b & Vb & Lb).
  destruct (after_total e b T) as (b' & Ab). exists b'. split; [unfold tour, seq; rewrite Vb; exact Ab|].
  destruct (after_eq e _ _ Ab) as (ob & ->). assert (F := each_visit_flat e r a s1 Er). destruct (flat_within _ _ _ _ F) as (W1 & W2 & W3 & W4 & W5 & W6 & W7 & W8 & W9 & W10).
  assert (Q : forall y, In y (s_user_defs s1) -> In y (s_user_defs b) \/ defined_in r y).
  { intros y I. destruct (flat_defs _ _ _ _ y F I) as [J|(n & (x & X & Bx) & D)]; [left|right; exists x, n; auto].
    destruct Lb as (o3 & l3 & c3 & Lb). apply (f_equal s_user_defs) in Lb. cbn in Lb. rewrite <- Lb. exact J. }
  assert (M : s_modules b = s_modules a /\ s_members b = s_members a /\ s_kwargs b = s_kwargs a /\ s_ufds b = s_ufds a /\ s_cehs b = s_cehs a /\ s_cencs b = s_cencs a /\
    s_strftimes b = s_strftimes a /\ s_bytesdirs b = s_bytesdirs a /\ s_typecodes b = s_typecodes a /\ s_flags b = s_flags a).
  { destruct Lb as (o3 & l3 & c3 & Lb). destruct b, a. cbn in Lb. injection Lb. intros. subst. cbn. repeat split; reflexivity. }
  destruct M as (M1 & M2 & M3 & M4 & M5 & M6 & M7 & M8 & M9 & M10).
  cbn [s_kwargs s_ufds s_cehs s_cencs s_strftimes s_bytesdirs s_typecodes s_flags u_out u_members u_modules u_depth s_modules s_members s_user_defs].
  rewrite M3, M4, M5, M6, M7, M8, M9, M10. repeat (split; [assumption|]).
  split; intros y; rewrite !filter_mem_in; intros [I N]; (destruct (in_dec String.string_dec y (s_user_defs s1)) as [J|J]; [right; split; [exact J|]|left; split; [|exact J]]).
  - destruct (Q y J) as [K|K]; [contradiction|exact K].
  - apply W1. rewrite <- M1. exact I.
  - destruct (Q y J) as [K|K]; [contradiction|exact K].
  - apply W2. rewrite <- M2. exact I.
Qed.

(** ** More files *)
Lemma results_more h major c file how paths paths' rs rs' x : analysed h major c file how paths rs -> analysed h major c file how paths' rs' ->
  incl paths paths' -> In x rs -> In x rs'.
Proof.
  intros A A' I H.
  assert (P : exists p, In p paths /\ snd (process_individual h major c p (file p) (how p)) = Ok x).
  { clear - A H. induction A as [|p r ps l E A IH]; [destruct H|]. destruct H as [->|H].
    - exists p. split; [left; reflexivity|exact E].
    - destruct (IH H) as (q & Q & E'). exists q. split; [right; exact Q|exact E']. }
  destruct P as (p & P & E). apply I in P. clear - A' P E. induction A' as [|q r ps l E' A IH]; [destruct P|].
  destruct P as [->|P]; [left; congruence|right; exact (IH P)].
Qed.
Lemma files_more h major c file how n n' paths paths' rs rs' : analysed h major c file how paths rs -> analysed h major c file how paths' rs' ->
  toured rs' -> incl paths paths' -> 1 <= n -> 1 <= n' -> combinable c rs' ->
  exists out s out' s', process h major c file how n paths = (out, Ok s) /\ process h major c file how n' paths' = (out', Ok s') /\ says_no_less s s'.
Proof.
  intros A A' T' I N N' C'. assert (R := fun x => results_more _ _ _ _ _ _ _ _ _ x A A' I).
  assert (T : toured rs) by (intros r J; apply T', R, J).
  assert (V : forall m, verdict_in rs m -> verdict_in rs' m) by (intros m (r & J & E); exists r; split; [apply R, J|exact E]).
  assert (Cn : forall r m, counted rs r m -> counted rs' r m) by (intros r m (J & E); split; [apply R, J|exact E]).
  assert (C : combinable c rs) by (destruct C' as [C|C]; [left; exact C|right; intros a b Ha Hb; apply C; auto]).
  destruct (process_summary _ _ _ _ _ _ _ _ A T N C) as (out & s & P & J & Ic & S & _).
  destruct (process_summary _ _ _ _ _ _ _ _ A' T' N' C') as (out' & s' & P' & J' & Ic' & S' & _).
  exists out, s, out', s'. split; [exact P|]. split; [exact P'|]. split.
  - apply J; [exact (proj1 J')|]. intros m Hm. apply J', V, Hm.
  - intros v Iv. apply (sum_unique _ _ S) in Iv as (L & m & Hm & E). apply (sum_unique _ _ S'). split; [exact L|]. exists m. split; [apply V, Hm|exact E].
  - intros b Ib. apply (sum_bps _ _ S) in Ib as (r & m & Hm & E). apply (sum_bps _ _ S'). exists r, m. split; [apply Cn, Hm|exact E].
  - intros H. apply Ic in H as (r & Hr & E). apply Ic'. exists r. split; [apply R, Hr|exact E].
  - intros H. apply (sum_novm _ _ S) in H as (r & m & Hm & E). apply (sum_novm _ _ S'). exists r, m. split; [apply Cn, Hm|exact E].
  - intros H. apply (sum_maybe _ _ S) in H as (r & m & Hm & E). apply (sum_maybe _ _ S'). exists r, m. split; [apply Cn, Hm|exact E].
Qed.
