(** Lemmas for C35, C36, C45, C46. *)
From Verif Require Import PyBase PyLemmas Utility RulesData Rules Config Formats Paths AstKinds Ast State Visitor
  MinVersions Spec_Base Spec_Utility Proof_Utility Spec_Rules Proof_Rules Spec_MinVersions.
From Verif Require Import Proof_Strings Formats Proof_Formats.

(** ** Steps are the triggered rules *)

Lemma flag_eqb_eq : forall a b, flag_eqb a b = true <-> a = b.
Proof. intros. unfold flag_eqb. destruct (flag_eq_dec a b); split; congruence. Qed.

Lemma has_flag_In : forall s f, has_flag s f = true <-> In f (s_flags s).
Proof.
  intros. unfold has_flag. rewrite existsb_exists. split.
  - intros (x & I & E). apply flag_eqb_eq in E. congruence.
  - intros I. exists f. rewrite flag_eqb_eq. auto.
Qed.

Lemma flag_table_documented : forall f m, f <> FPrintV2 ->
  ((exists i, In (f, m, i) flag_table) <-> documented f m).
Proof.
  intros f m N. split.
  - intros [i H]. unfold flag_table in H. simpl in H.
    repeat (destruct H as [H|H]; [injection H as <- <- <-; constructor|]). destruct H.
  - intros D. destruct D; try congruence; eexists; unfold flag_table, no2, both; simpl; clear; 
      repeat first [left; reflexivity | right].
Qed.

Definition rule_in (l : list step) (m : mins) : Prop := exists i ent, In (SRule m i ent) l.

Lemma rule_in_app : forall a b m, rule_in (a ++ b) m <-> rule_in a m \/ rule_in b m.
Proof.
  unfold rule_in. intros. split.
  - intros (i & ent & H). apply in_app_iff in H as [H|H]; eauto.
  - intros [(i & ent & H)|(i & ent & H)]; exists i, ent; apply in_app_iff; auto.
Qed.

Lemma rule_steps_in : forall {A} (lk : A -> option mins) tx en l m,
  rule_in (rule_steps lk tx en l) m <-> exists a, In a l /\ lk a = Some m.
Proof.
  intros. unfold rule_in, rule_steps. split.
  - intros (i & ent & H). apply in_flat_map in H as (a & I & H). exists a. split; auto.
    destruct (lk a); [|destruct H]. destruct H as [H|[]]. congruence.
  - intros (a & I & E). exists (Some (tx a)), (Some (en a)). apply in_flat_map. exists a. rewrite E. simpl; auto.
Qed.

Lemma rule_steps_no_raise : forall {A} (lk : A -> option mins) tx en l x, ~ In (SRaise x) (rule_steps lk tx en l).
Proof.
  intros A lk tx en l x H. apply in_flat_map in H as (a & I & H). destruct (lk a); [|destruct H].
  destruct H as [H|[]]. discriminate.
Qed.

Lemma enc_matches_iff : forall k n, enc_matches k n = true <-> covers k n.
Proof.
  intros [l|s] n; simpl.
  - apply mem_In.
  - apply Proof_Strings.contains_iff.
Qed.

Lemma encoding_steps_in : forall l m, rule_in (flat_map encoding_steps l) m <->
  exists n k, In (VStr n) l /\ In (k, m) codecs_encodings_reqs /\ covers k (lower n).
Proof.
  intros l m. unfold rule_in. split.
  - intros (i & ent & H). apply in_flat_map in H as (v & I & H). apply in_flat_map in H as ([k r] & J & H).
    destruct v as [| | | | |s|s| | |]; cbn [fst snd] in H;
      try (destruct H as [H|[]]; discriminate H).
    + destruct (enc_matches k (lower s)) eqn:E; [|destruct H]. destruct H as [H|[]]. injection H as <- _ _.
      apply enc_matches_iff in E. eauto.
    + destruct k; [destruct H|]. destruct H as [H|[]]. discriminate.
  - intros (n & k & I & J & E). apply enc_matches_iff in E. exists (Some (quoted "codecs encoding " n "")), (Some (EStr n)).
    apply in_flat_map. exists (VStr n). split; auto. apply in_flat_map. exists (k, m). split; auto.
    cbn [fst snd]. rewrite E. simpl; auto.
Qed.

Lemma encoding_no_raise : forall l x, (forall v, In v l -> exists n, v = VStr n) -> ~ In (SRaise x) (flat_map encoding_steps l).
Proof.
  intros l x S H. apply in_flat_map in H as (v & I & H). apply in_flat_map in H as ([k r] & J & H).
  destruct (S v I) as [n ->]. cbn [fst snd] in H. destruct (enc_matches k (lower n)); [|destruct H].
  destruct H as [H|[]]. discriminate.
Qed.

Lemma assoc_iff : forall {A} k (v : A) l, NoDup (map fst l) -> (assoc k l = Some v <-> In (k, v) l).
Proof. intros. split; [apply assoc_In | apply In_assoc; auto]. Qed.

Section S.
  Variable e : env.

  Lemma steps_rule : forall s m, rule_in (steps e s) m <->
    triggered (bps_of e) (u_flags (filter (fun f => negb (flag_eqb f FPrintV2)) (s_flags s)) s) m.
  Proof.
    destruct small_keys_nodup as (N1 & N2 & N3 & N4 & N5 & _).
    intros s m. unfold steps. rewrite !rule_in_app, !rule_steps_in, encoding_steps_in. split.
    - intros [H|[H|[H|[H|[H|[H|[H|[H|[H|H]]]]]]]]].
      + destruct H as (i & ent & H). apply in_flat_map in H as ([[f v] j] & I & H).
        destruct (has_flag s f) eqn:F; [|destruct H]. destruct H as [H|[]]. injection H as <- _ _.
        apply has_flag_In in F. assert (Nf : f <> FPrintV2).
        { intros ->. unfold flag_table in I. simpl in I. decompose [or] I; try discriminate; auto. }
        apply trig_feature with f; [|apply flag_table_documented; eauto].
        cbn. apply filter_In. split; auto. destruct (flag_eqb f FPrintV2) eqn:Q; auto. apply flag_eqb_eq in Q. congruence.
      + destruct H as (a & I & A). eapply trig_strftime; [exact I|]. apply assoc_iff; auto.
      + destruct H as (a & I & A). eapply trig_bytes; [exact I|]. apply assoc_iff; auto.
      + destruct H as (a & I & A). eapply trig_typecode; [exact I|]. apply assoc_iff; auto.
      + destruct H as (a & I & A). destruct a; try discriminate. eapply trig_handler; [exact I|]. apply assoc_iff; auto.
      + destruct H as (n & k & I & J & E). eapply trig_encoding; [exact I|eauto..].
      + destruct H as (a & I & A). eapply trig_module; [exact I|eauto..].
      + destruct H as (a & I & A). eapply trig_member; [exact I|eauto..].
      + destruct H as ([f [k|]] & I & A); [|discriminate]. eapply trig_kwarg; [exact I|eauto..].
      + destruct H as (a & I & A). eapply trig_deco; [exact I|]. apply assoc_iff; auto.
    - intros T. destruct T as [f m I D|d m I J|d m I J|d m I J|n m I J|n k m I J E|n m I J|n m I J|f k m I J|n m I J]; cbn in I.
      + left. apply filter_In in I as [I Q]. assert (Nf : f <> FPrintV2).
        { intros ->. rewrite (proj2 (flag_eqb_eq _ _)) in Q; auto. discriminate. }
        apply flag_table_documented in D as [i D]; auto. exists i, None. apply in_flat_map.
        exists (f, m, i). split; auto. rewrite (proj2 (has_flag_In s f)); simpl; auto.
      + right. left. exists d. split; auto. apply assoc_iff; auto.
      + do 2 right. left. exists d. split; auto. apply assoc_iff; auto.
      + do 3 right. left. exists d. split; auto. apply assoc_iff; auto.
      + do 4 right. left. exists (VStr n). split; auto. apply assoc_iff; auto.
      + do 5 right. left. exists n, k. auto.
      + do 6 right. left. eauto.
      + do 7 right. left. eauto.
      + do 8 right. left. exists (f, Some k). eauto.
      + do 9 right. exists n. split; auto. apply assoc_iff; auto.
  Qed.

  Lemma steps_no_raise : forall s x, str_encodings s -> ~ In (SRaise x) (steps e s).
  Proof.
    intros s x S H. unfold steps in H. rewrite !in_app_iff in H.
    repeat (destruct H as [H|H]; [first [ now apply rule_steps_no_raise in H
      | now apply encoding_no_raise in H
      | apply in_flat_map in H as ([[f v] i] & _ & H); destruct (has_flag s f); [destruct H as [H|[]]; discriminate | destruct H] ]|]).
    now apply rule_steps_no_raise in H.
  Qed.

  (** ** The verdict *)

  Definition start (s : st) : mins := if has_flag s FPrintV2 then (Some (2, 0), Some (0, 0)) else zero_mins.

  Lemma add_versions_ok : forall v i ent m s m' s', add_versions e v i ent m s = Ok (m', s') ->
    combine2 (c_ignore_incomp (e_cfg e)) (Some (s_info s')) m v = Ok m'.
  Proof.
    intros v i ent m s m' s' H. unfold add_versions, bindr in H.
    destruct (violates e (Some v)); [|discriminate].
    destruct ((match i with Some _ => _ | None => nop end) s) as [s1|]; [|discriminate].
    destruct (combine2 _ _ m v) eqn:C; [|discriminate]. injection H as <- <-. auto.
  Qed.

  Lemma combine2_any : forall ig refs a b r, combine2 ig refs a b = Ok r -> r = mjoin a b /\ (ig = true \/ ~ clashing a b).
  Proof.
    intros ig refs a b r H. unfold combine2 in H. destruct (negb ig && clash a b) eqn:C; [discriminate|].
    injection H as <-. split; [reflexivity|]. destruct ig; auto. right. simpl in C. rewrite <- clash_iff. congruence.
  Qed.

  Lemma run_steps_ok : forall l m s m' s', run_steps e l m s = Ok (m', s') ->
    (forall x, ~ In (SRaise x) l) /\ exists vs, (forall v, In v vs <-> rule_in l v) /\ m' = fold_left mjoin vs m.
  Proof.
    induction l as [|[v i ent|x] l IH]; cbn [run_steps]; intros m s m' s' H.
    - injection H as <- <-. split; [intros x []|]. exists []. split; auto. intros v. split; [intros [] | intros (? & ? & [])].
    - unfold bindr in H. destruct (add_versions e v i ent m s) as [[m1 s1]|] eqn:A; [|discriminate].
      apply add_versions_ok in A. apply combine2_any in A as [A _]. cbn [fst snd] in H. subst m1.
      destruct (IH _ _ _ _ H) as (R & vs & V & ->). split.
      + intros x [E|I]; [discriminate|]. apply (R x I).
      + exists (v :: vs). split; [|reflexivity]. intros w. cbn [In]. rewrite V. unfold rule_in. split.
        * intros [<-|(j & en & I)]; [exists i, ent | exists j, en]; simpl; auto.
        * intros (j & en & [E|I]); [injection E as <- _ _; auto | right; eauto].
    - discriminate.
  Qed.

  Lemma triggered_start : forall bps s m, triggered bps s m <->
    (In FPrintV2 (s_flags s) /\ m = (Some (2, 0), Some (0, 0))) \/
    triggered bps (u_flags (filter (fun f => negb (flag_eqb f FPrintV2)) (s_flags s)) s) m.
  Proof.
    intros bps s m. split.
    - intros T. destruct T as [f m I D|d m I J|d m I J|d m I J|n m I J|n k m I J E|n m I J|n m I J|f k m I J|n m I J].
      + destruct (flag_eq_dec f FPrintV2) as [->|N].
        * left. split; auto. inversion D. reflexivity.
        * right. apply trig_feature with f; auto. cbn. apply filter_In. split; auto.
          destruct (flag_eqb f FPrintV2) eqn:Q; auto. apply flag_eqb_eq in Q. congruence.
      + right. eapply trig_strftime; eauto.
      + right. eapply trig_bytes; eauto.
      + right. eapply trig_typecode; eauto.
      + right. eapply trig_handler; eauto.
      + right. eapply trig_encoding; eauto.
      + right. eapply trig_module; eauto.
      + right. eapply trig_member; eauto.
      + right. eapply trig_kwarg; eauto.
      + right. eapply trig_deco; eauto.
    - intros [[I ->]|T].
      + eapply trig_feature; [exact I | constructor].
      + destruct T as [f m I D|d m I J|d m I J|d m I J|n m I J|n k m I J E|n m I J|n m I J|f k m I J|n m I J].
        * cbn in I. apply filter_In in I as [I _]. eapply trig_feature; eauto.
        * eapply trig_strftime; eauto.
        * eapply trig_bytes; eauto.
        * eapply trig_typecode; eauto.
        * eapply trig_handler; eauto.
        * eapply trig_encoding; eauto.
        * eapply trig_module; eauto.
        * eapply trig_member; eauto.
        * eapply trig_kwarg; eauto.
        * eapply trig_deco; eauto.
  Qed.

  Lemma minimum_versions_steps : forall s m s', minimum_versions e s = Ok (m, s') ->
    exists s1, run_steps e (steps e s) (start s) s1 = Ok (m, s').
  Proof.
    intros s m s' H. unfold minimum_versions, bindr in H. 
    destruct (when _ _ s) as [s1|]; [|discriminate]. eauto.
  Qed.

  Lemma join_of : forall s m s', minimum_versions e s = Ok (m, s') -> is_join_of (triggered (bps_of e) s) m.
  Proof.
    intros s m s' H. apply minimum_versions_steps in H as [s1 H].
    apply run_steps_ok in H as (_ & vs & V & ->).
    destruct (fold_mjoin_lub vs (start s)) as [U L].
    assert (Z : mins_le zero_mins (start s)).
    { unfold start. destruct (has_flag s FPrintV2); [|apply mins_le_refl].
      split; simpl; unfold ver_le; simpl; lia. }
    split; [|split].
    - eapply mins_le_trans; [exact Z|]. apply U. simpl; auto.
    - intros w T. apply triggered_start in T as [[F ->]|T].
      + apply has_flag_In in F. assert (K := U (start s)). unfold start in K at 3. unfold start in K at 1. rewrite F in K.
        apply K. left. unfold start. rewrite F. reflexivity.
      + apply U. right. apply V, steps_rule. exact T.
    - intros u Zu Tu. apply L. intros w [<-|I].
      + unfold start. destruct (has_flag s FPrintV2) eqn:F; auto. apply Tu, triggered_start. left.
        split; auto. apply has_flag_In. auto.
      + apply Tu, triggered_start. right. apply steps_rule, V. auto.
  Qed.

  (** ** When it raises *)

  Lemma triggered_wf : forall s m, triggered (bps_of e) s m -> wf_mins m \/ m = (Some (2, 0), Some (0, 0)).
  Proof.
    assert (T := small_tables_wf).
    intros s m H. destruct H as [f m I D|d m I J|d m I J|d m I J|n m I J|n k m I J E|n m I J|n m I J|f k m I J|n m I J].
    - destruct D; try (right; reflexivity); left; apply wf_minsb_ok; reflexivity.
    - left. apply T. apply in_app_iff. left. apply in_map_iff. exists (d, m). auto.
    - left. apply T. rewrite !in_app_iff. right. left. apply in_map_iff. exists (d, m). auto.
    - left. apply T. rewrite !in_app_iff. do 2 right. left. apply in_map_iff. exists (d, m). auto.
    - left. apply T. rewrite !in_app_iff. do 3 right. left. apply in_map_iff. exists (n, m). auto.
    - left. apply T. rewrite !in_app_iff. do 5 right. left. apply in_map_iff. exists (k, m). auto.
    - left. eapply mod_req_wf; eauto.
    - left. eapply mem_req_wf; eauto.
    - left. eapply kwarg_req_wf; eauto.
    - left. apply T. rewrite !in_app_iff. do 4 right. left. apply in_map_iff. exists (n, m). auto.
  Qed.

  Lemma violates_ok : forall m, targets_given (e_cfg e) -> exists b, violates e m = Ok b.
  Proof.
    intros [m|] T; unfold violates; [|eauto]. destruct (negb (c_only_show_violations (e_cfg e))) eqn:O; [eauto|].
    apply negb_false_iff in O. specialize (T O). unfold aligned_targets.
    destruct (map snd (c_targets (e_cfg e))) as [|t [|t' r]] eqn:E; cbn; eauto.
    destruct (c_targets (e_cfg e)); [congruence | discriminate].
  Qed.

  Lemma print_ok : forall level msg ent line m pl s, targets_given (e_cfg e) ->
    exists s', verbose_print_v e level msg ent line m pl s = Ok s' /\ exists o, s' = u_out o s.
  Proof.
    intros level msg ent line m pl s T. unfold verbose_print_v. destruct (violates_ok m T) as [b ->].
    assert (E : forall s : st, s = u_out (s_out s) s) by (intros []; reflexivity).
    destruct b; [|eauto]. destruct (_ || _); [eauto|].
    destruct (match ent with Some x => _ | None => None end) as [[l c]|]; eauto.
  Qed.

  Lemma add_versions_cases : forall v i ent m s, targets_given (e_cfg e) ->
    exists s' refs, add_versions e v i ent m s =
      match combine2 (c_ignore_incomp (e_cfg e)) refs m v with Ok m' => Ok (m', s') | Err x => Err x end.
  Proof.
    intros v i ent m s T. unfold add_versions, bindr. destruct (violates_ok (Some v) T) as [b ->].
    assert (K : exists s', (match i with
       | Some i => when b (upd (fun s => u_info (add_info v i (s_info s)) s) >>
              match ent with Some _ => verbose_print_v e 2 i ent None (Some v) None | None => nop end)
       | None => nop end) s = Ok s').
    { destruct i as [i|]; [|cbn; eauto]. destruct b; [|cbn; eauto]. cbn [when]. unfold seq, upd.
      destruct ent; [|cbn; eauto].
      destruct (print_ok 2 i (Some e0) None (Some v) None (u_info (add_info v i (s_info s)) s) T) as (s' & E & _). eauto. }
    destruct K as [s' K]. rewrite K. exists s', (Some (s_info s')). reflexivity.
  Qed.

  Lemma clashing_mjoin : forall a b x, clashing (mjoin a b) x -> clashing a x \/ clashing b x.
  Proof.
    intros [a2 a3] [b2 b3] [x2 x3]. unfold clashing, py2_only, py3_only, mjoin. simpl. intros H.
    destruct a2, a3, b2, b3, x2, x3; simpl in *; intuition congruence.
  Qed.

  Lemma mjoin_clash : forall a b x, a <> (None, None) -> b <> (None, None) -> ~ clashing a b ->
    clashing a x -> mjoin a b <> (None, None) /\ clashing (mjoin a b) x.
  Proof.
    intros [a2 a3] [b2 b3] [x2 x3]. unfold clashing, py2_only, py3_only, mjoin. simpl. intros A B C D.
    destruct a2, a3, b2, b3, x2, x3; simpl in *; intuition congruence.
  Qed.

  Lemma mjoin_not_none : forall a b, a <> (None, None) -> b <> (None, None) -> ~ clashing a b -> mjoin a b <> (None, None).
  Proof.
    intros [a2 a3] [b2 b3]. unfold clashing, py2_only, py3_only, mjoin. simpl. intros A B C.
    destruct a2, a3, b2, b3; simpl in *; intuition congruence.
  Qed.

  (** Success or a clash, nothing else. *)
  Lemma run_steps_total : forall l m s, targets_given (e_cfg e) -> (forall x, ~ In (SRaise x) l) ->
    (exists m' s', run_steps e l m s = Ok (m', s')) \/
    (exists msg, run_steps e l m s = Err (InvalidVersion msg)).
  Proof.
    induction l as [|[v i ent|x] l IH]; cbn [run_steps]; intros m s T R.
    - left; eauto.
    - destruct (add_versions_cases v i ent m s T) as (s1 & refs & A). rewrite A. clear A. unfold bindr.
      destruct (combine2_total (c_ignore_incomp (e_cfg e)) refs m v) as [[m1 C]|[msg C]]; rewrite C; cbn [fst snd].
      + apply IH; auto. intros x I. apply (R x). right; auto.
      + right; eauto.
    - exfalso. apply (R x). left; auto.
  Qed.

  Lemma run_steps_clash : forall l m s, targets_given (e_cfg e) -> (forall x, ~ In (SRaise x) l) ->
    c_ignore_incomp (e_cfg e) = false -> m <> (None, None) -> (forall v, rule_in l v -> v <> (None, None)) ->
    ((exists msg, run_steps e l m s = Err (InvalidVersion msg)) <->
     exists a b, (a = m \/ rule_in l a) /\ (b = m \/ rule_in l b) /\ clashing a b).
  Proof.
    induction l as [|[v i ent|x] l IH]; cbn [run_steps]; intros m s T R Ig Nm Nl.
    - split.
      + intros [msg H]. discriminate.
      + intros (a & b & [->|(? & ? & [])] & [->|(? & ? & [])] & C).
        exfalso. destruct m as [m2 m3]. unfold clashing, py2_only, py3_only in C. simpl in C.
        destruct m2, m3; intuition congruence.
    - destruct (add_versions_cases v i ent m s T) as (s1 & refs & A). rewrite A. clear A. unfold bindr. rewrite Ig.
      assert (V : rule_in (SRule v i ent :: l) v) by (exists i, ent; left; auto).
      assert (W : forall w, rule_in (SRule v i ent :: l) w <-> w = v \/ rule_in l w).
      { intros w. unfold rule_in. split.
        - intros (j & en & [E|I]); [injection E as <- _ _; auto | right; eauto].
        - intros [->|(j & en & I)]; [exists i, ent | exists j, en]; simpl; auto. }
      assert (S : forall a b, clashing a b <-> clashing b a) by (intros a b; unfold clashing; tauto).
      destruct (combine2_total false refs m v) as [[m1 C]|[msg C]]; rewrite C; cbn [fst snd].
      + apply combine2_any in C as [-> [C|C]]; [discriminate|].
        assert (Nv := Nl v V).
        rewrite (IH (mjoin m v) s1 T (fun x I => R x (or_intror I)) Ig (mjoin_not_none _ _ Nm Nv C)
                    (fun w I => Nl w (proj2 (W w) (or_intror I)))). clear IH. split.
        * assert (G : forall a b, clashing a b -> (a = mjoin m v \/ rule_in l a) -> (b = mjoin m v \/ rule_in l b) ->
                   exists a' b', clashing a' b' /\ (a' = m \/ rule_in (SRule v i ent :: l) a') /\ (b' = m \/ rule_in (SRule v i ent :: l) b')).
          { assert (H1 : forall b, clashing (mjoin m v) b -> exists a', clashing a' b /\ (a' = m \/ rule_in (SRule v i ent :: l) a')).
            { intros b K. apply clashing_mjoin in K as [K|K]; [exists m | exists v]; auto. }
            intros a b K [->|A] [->|B].
            - destruct (H1 _ K) as (a' & K' & A'). apply S in K'. destruct (H1 _ K') as (b' & K'' & B'). exists b', a'. auto.
            - destruct (H1 _ K) as (a' & K' & A'). exists a', b. split; auto. split; auto. right. apply W. auto.
            - apply S in K. destruct (H1 _ K) as (b' & K' & B'). exists a, b'. split; [apply S; auto|]. split; auto. right. apply W; auto.
            - exists a, b. split; auto. split; right; apply W; auto. }
          intros (a & b & A & B & K). destruct (G a b K A B) as (a' & b' & K' & A' & B'). exists a', b'. auto.
        * assert (H1 : forall a b, clashing a b -> (a = m \/ a = v) -> b <> (None, None) -> clashing (mjoin m v) b).
          { intros a b K [->| ->] Nb.
            - apply mjoin_clash; auto.
            - rewrite mjoin_comm. apply mjoin_clash; auto. rewrite S. auto. }
          assert (Cl : forall a, clashing a a -> False).
          { intros [a2 a3] K. unfold clashing, py2_only, py3_only in K. simpl in K. destruct a2, a3; intuition congruence. }
          intros (a & b & A & B & K). rewrite W in A, B.
          assert (A' : (a = m \/ a = v) \/ rule_in l a) by tauto.
          assert (B' : (b = m \/ b = v) \/ rule_in l b) by tauto.
          destruct A' as [A'|A'], B' as [B'|B'].
          -- exfalso. destruct A' as [->| ->], B' as [->| ->]; eauto. apply C, S, K.
          -- exists (mjoin m v), b. split; auto. split; auto. eapply H1; eauto. apply Nl, W; auto.
          -- exists a, (mjoin m v). split; auto. split; auto. apply S. eapply H1; [apply S; exact K| auto |]. apply Nl, W; auto.
          -- exists a, b. auto.
      + split; [|intros _; eauto]. intros _.
        assert (K : clashing m v). { apply (combine2_clash false refs m v); eauto. }
        exists m, v. auto.
    - exfalso. apply (R x). left; auto.
  Qed.

  (** ** Asking again *)

  Definition with_oi (o : list string) (i : refs_t) (s : st) : st := u_out o (u_info i s).

  Lemma print_again : forall level msg ent line m pl s,
    (exists x, forall o i, verbose_print_v e level msg ent line m pl (with_oi o i s) = Err x) \/
    (exists ls, forall o i, verbose_print_v e level msg ent line m pl (with_oi o i s) = Ok (with_oi (o ++ ls) i s)).
  Proof.
    intros. unfold verbose_print_v. destruct (violates e m) as [[]|x]; [|right; exists []|left; eauto].
    2: { intros. rewrite app_nil_r. reflexivity. }
    destruct (_ || _); [right; exists []; intros; rewrite app_nil_r; reflexivity|].
    right.
    destruct (match ent with Some x => if 2 <? c_verbose (e_cfg e) then lookup_lc x s else None | None => None end)
      as [[l c]|] eqn:L; eexists; intros o i;
      change (match ent with Some x => if 2 <? c_verbose (e_cfg e) then lookup_lc x (with_oi o i s) else None | None => None end)
        with (match ent with Some x => if 2 <? c_verbose (e_cfg e) then lookup_lc x s else None | None => None end);
      rewrite L; change (s_line (with_oi o i s)) with (s_line s); reflexivity.
  Qed.

  Lemma add_versions_again : forall v i ent m s,
    (exists ls, forall o f, exists f', 
       add_versions e v i ent m (with_oi o f s) =
         match combine2 (c_ignore_incomp (e_cfg e)) (Some f') m v with Ok m' => Ok (m', with_oi (o ++ ls) f' s) | Err x => Err x end) \/
    (exists x, forall o f, add_versions e v i ent m (with_oi o f s) = Err x).
  Proof.
    intros v i ent m s. unfold add_versions, bindr. destruct (violates e (Some v)) as [b|x]; [|right; eauto].
    destruct i as [i|]; cycle 1.
    { left. exists []. intros o f. exists f. rewrite app_nil_r. reflexivity. }
    destruct b; cycle 1.
    { left. exists []. intros o f. exists f. rewrite app_nil_r. reflexivity. }
    cbn [when]. unfold seq, upd. destruct ent as [x|]; cycle 1.
    { left. exists []. intros o f. exists (add_info v i f). rewrite app_nil_r. reflexivity. }
    destruct (print_again 2 i (Some x) None (Some v) None s) as [[y E]|[ls E]].
    - right. exists y. intros o f. change (u_info ?g (with_oi o f s)) with (with_oi o g s). rewrite E. reflexivity.
    - left. exists ls. intros o f. exists (add_info v i f).
      change (u_info ?g (with_oi o f s)) with (with_oi o g s). rewrite E. reflexivity.
  Qed.

  Lemma run_steps_again : forall s l m o f m' s', run_steps e l m (with_oi o f s) = Ok (m', s') ->
    exists ls f', s' = with_oi (o ++ ls) f' s /\
      forall o2 f2, exists f2', run_steps e l m (with_oi o2 f2 s) = Ok (m', with_oi (o2 ++ ls) f2' s).
  Proof.
    induction l as [|[v i ent|x] l IH]; cbn [run_steps]; intros m o f m' s' H.
    - injection H as <- <-. exists [], f. rewrite app_nil_r. split; auto. intros. exists f2. rewrite app_nil_r. auto.
    - unfold bindr in *. destruct (add_versions_again v i ent m s) as [[ls A]|[x A]]; [|rewrite A in H; discriminate].
      destruct (A o f) as [f1 A1]. rewrite A1 in H. destruct (combine2 _ (Some f1) m v) as [m1|] eqn:C; [|discriminate].
      cbn [fst snd] in H. destruct (IH _ _ _ _ _ H) as (ls' & f' & -> & K). exists (ls ++ ls'), f'.
      rewrite app_assoc. split; auto. intros o2 f2. destruct (A o2 f2) as [f3 A3]. rewrite A3.
      apply combine2_any in C as [-> Cl]. 
      assert (C : combine2 (c_ignore_incomp (e_cfg e)) (Some f3) m v = Ok (mjoin m v)).
      { unfold combine2. destruct Cl as [->|Cl]; [reflexivity|]. rewrite <- clash_iff in Cl. destruct (clash m v); [congruence|].
        rewrite andb_false_r. reflexivity. }
      rewrite C. cbn [fst snd]. destruct (K (o2 ++ ls) f3) as [f4 K4]. exists f4. rewrite app_assoc. exact K4.
    - discriminate.
  Qed.

  Lemma minimum_versions_again : forall s m s', minimum_versions e s = Ok (m, s') ->
    exists s'', minimum_versions e s' = Ok (m, s'') /\
      forall l, (In l (s_out s'') <-> In l (s_out s')) /\ exists ls, s_out s'' = s_out s' ++ ls.
  Proof.
    intros s m s' H. assert (Es : s = with_oi (s_out s) (s_info s) s) by (destruct s; reflexivity).
    unfold minimum_versions, bindr in *.
    set (st0 := if has_flag s FPrintV2 then (Some (2, 0), Some (0, 0)) else zero_mins) in *.
    assert (P : exists ls, forall o i, when (has_flag s FPrintV3) (verbose_print_v e 2 "print(expr)" None (Some (-1)) (Some (Some (2, 0), Some (3, 0))) None)
              (with_oi o i s) = Ok (with_oi (o ++ ls) i s)).
    { destruct (has_flag s FPrintV3); [|exists []; intros; rewrite app_nil_r; reflexivity]. cbn [when] in *.
      destruct (print_again 2 "print(expr)" None (Some (-1)) (Some (Some (2, 0), Some (3, 0))) None s) as [[x P]|P]; auto.
      exfalso. specialize (P (s_out s) (s_info s)). rewrite <- Es in P. rewrite P in H. discriminate. }
    destruct P as [lp P]. assert (P0 := P (s_out s) (s_info s)). rewrite <- Es in P0. rewrite P0 in H. clear P0.
    destruct (run_steps_again _ _ _ _ _ _ _ H) as (ls & f' & -> & K).
    change (has_flag (with_oi ?o ?i s)) with (has_flag s). change (steps e (with_oi ?o ?i s)) with (steps e s).
    rewrite P. fold st0. destruct (K (((s_out s ++ lp) ++ ls) ++ lp) f') as [f2 K2]. rewrite K2.
    eexists. split; [reflexivity|]. intros l. cbn. split.
    - rewrite !in_app_iff. tauto.
    - eexists. rewrite <- !app_assoc. reflexivity.
  Qed.

  Lemma dedup_from_app : forall l l' seen, (forall x, In x l' -> In x l \/ In x seen) ->
    dedup_from seen (l ++ l') = dedup_from seen l.
  Proof.
    induction l as [|x l IH]; intros l' seen H; simpl.
    - induction l' as [|y l' IH']; auto. simpl. destruct (H y (or_introl eq_refl)) as [[]|I].
      rewrite (proj2 (mem_In y seen) I). apply IH'. intros x X. apply H. right; auto.
    - destruct (mem x seen) eqn:M.
      + apply IH. intros y Y. destruct (H y Y) as [[->|I]|I]; auto. right. apply mem_In; auto.
      + f_equal. apply IH. intros y Y. destruct (H y Y) as [[->|I]|I]; simpl; auto.
  Qed.

  Lemma text_again : forall s m s' s'', c_print_visits (e_cfg e) = false ->
    minimum_versions e s = Ok (m, s') -> minimum_versions e s' = Ok (m, s'') ->
    output_text e s'' = output_text e s'.
  Proof.
    intros s m s' s'' P H H'. destruct (minimum_versions_again _ _ _ H) as (t & H2 & K). rewrite H' in H2. injection H2 as <-.
    unfold output_text, output_lines. rewrite P. destruct (K "") as [_ [ls E]]. rewrite E. unfold dedup.
    rewrite dedup_from_app; auto. intros x X. left. apply (K x). rewrite E. apply in_app_iff. auto.
  Qed.

  (** ** Well-formed results *)

  Lemma wf_max : forall n a b, 0 < n -> wf_part n (Some a) -> wf_part n (Some b) ->
    wf_part n (Some (vmax a b)) /\ ((a <> (0, 0) \/ b <> (0, 0)) -> vmax a b <> (0, 0)).
  Proof.
    intros n [a1 a2] [b1 b2] N A B. unfold wf_part in *. simpl in A, B. unfold vmax, vltb. simpl.
    destruct A as [A|[-> A]], B as [B|[-> B]]; try (injection A as -> ->); try (injection B as -> ->); simpl.
    - split; auto. intros [H|H]; congruence.
    - destruct n; try lia; simpl; split; auto; intros _ E; congruence.
    - destruct n; try lia; simpl; split; auto; intros _ E; congruence.
    - rewrite Z.ltb_irrefl, Z.eqb_refl. simpl. destruct (a2 <? b2); split; auto; intros _ E; injection E; lia.
  Qed.

  Lemma verdict_ok_mjoin : forall a b, verdict_ok a -> verdict_ok b -> verdict_ok (mjoin a b).
  Proof.
    intros [a2 a3] [b2 b3] (A1 & A2 & A3 & A4) (B1 & B2 & B3 & B4). unfold mjoin. cbn [fst snd] in *.
    assert (M : forall n x y, 0 < n -> wf_part n x -> wf_part n y -> wf_part n (opt_max x y)).
    { intros n [x|] [y|] N X Y; simpl; auto. apply wf_max; auto. }
    assert (J : forall n x y, 0 < n -> wf_part n x -> wf_part n y ->
      (x = None \/ names_version x) \/ (y = None \/ names_version y) -> opt_max x y = None \/ names_version (opt_max x y)).
    { intros n [x|] [y|] N X Y H; simpl; auto. right. exists (vmax x y). split; auto. apply (wf_max n); auto.
      destruct H as [[H|(z & E & H)]|[H|(z & E & H)]]; try discriminate; injection E as <-; auto. }
    assert (S : forall x y, opt_max x y = None -> x = None \/ y = None) by (intros [x|] [y|]; simpl; intros; auto; discriminate).
    repeat split; cbn [fst snd].
    - apply M; auto; lia.
    - apply M; auto; lia.
    - intros H. apply (J 3); auto; [lia|]. apply S in H as [H|H]; auto.
    - intros H. apply (J 2); auto; [lia|]. apply S in H as [H|H]; auto.
  Qed.

  Lemma verdict_ok_zero : verdict_ok zero_mins.
  Proof. repeat split; simpl; auto; intros; discriminate. Qed.

  Lemma verdict_fold : forall vs m, verdict_ok m -> (forall v, In v vs -> verdict_ok v) -> verdict_ok (fold_left mjoin vs m).
  Proof.
    induction vs as [|v vs IH]; simpl; intros m M V; auto. apply IH; auto. apply verdict_ok_mjoin; auto.
  Qed.

  Lemma verdict_wf : forall s m s', minimum_versions e s = Ok (m, s') -> verdict_ok m.
  Proof.
    intros s m s' H. apply minimum_versions_steps in H as [s1 H]. apply run_steps_ok in H as (_ & vs & V & ->).
    assert (P : verdict_ok (Some (2, 0), Some (0, 0))).
    { repeat split; simpl; auto; try (intros; discriminate). right. lia. }
    apply verdict_fold.
    - unfold start. destruct (has_flag s FPrintV2); auto using verdict_ok_zero.
    - intros v I. apply V, steps_rule, triggered_wf in I. destruct I as [(A & B & C & D)| ->]; auto.
      repeat split; auto.
  Qed.

  (** Without ignoring incompatibilities, no verdict rules out both majors. *)
  Lemma verdict_possible : forall s m s', c_ignore_incomp (e_cfg e) = false ->
    minimum_versions e s = Ok (m, s') -> m <> (None, None).
  Proof.
    intros s m s' Ig H. apply minimum_versions_steps in H as [s1 H].
    assert (N : forall v, rule_in (steps e s) v -> v <> (None, None)).
    { intros v I. apply steps_rule, triggered_wf in I. destruct I as [(_ & _ & C & _)| ->]; [|discriminate].
      intros ->. destruct (C eq_refl) as (z & E & _). discriminate. }
    assert (S : start s <> (None, None)) by (unfold start; destruct (has_flag s FPrintV2); discriminate).
    revert H N S. generalize (start s). generalize s1. generalize (steps e s).
    induction l as [|[v i ent|x] l IH]; cbn [run_steps]; intros s2 m0 H N S.
    - injection H as <- <-. auto.
    - unfold bindr in H. destruct (add_versions e v i ent m0 s2) as [[m1 s3]|] eqn:A; [|discriminate].
      apply add_versions_ok in A. rewrite Ig in A. apply combine2_any in A as [-> [A|A]]; [discriminate|].
      apply IH in H; auto.
      + intros w (j & en & I). apply N. exists j, en. right; auto.
      + apply mjoin_not_none; auto. apply N. exists i, ent. left; auto.
    - discriminate.
  Qed.

  (** ** C35 and C36 *)

  Lemma raises_iff : forall s, targets_given (e_cfg e) -> str_encodings s -> c_ignore_incomp (e_cfg e) = false ->
    ((exists msg, minimum_versions e s = Err (InvalidVersion msg)) <->
     exists a b, triggered (bps_of e) s a /\ triggered (bps_of e) s b /\ py2_only a /\ py3_only b).
  Proof.
    intros s T E Ig.
    assert (P : exists s', when (has_flag s FPrintV3)
        (verbose_print_v e 2 "print(expr)" None (Some (-1)) (Some (Some (2, 0), Some (3, 0))) None) s = Ok s').
    { destruct (has_flag s FPrintV3); [|cbn; eauto]. cbn [when].
      destruct (print_ok 2 "print(expr)" None (Some (-1)) (Some (Some (2, 0), Some (3, 0))) None s T) as (s' & P & _). eauto. }
    destruct P as [s1 P]. unfold minimum_versions, bindr. rewrite P. fold (start s).
    assert (N : forall v, rule_in (steps e s) v -> v <> (None, None)).
    { intros v I. apply steps_rule, triggered_wf in I. destruct I as [(_ & _ & C & _)| ->]; [|discriminate].
      intros ->. destruct (C eq_refl) as (z & Q & _). discriminate. }
    assert (S : start s <> (None, None)) by (unfold start; destruct (has_flag s FPrintV2); discriminate).
    rewrite (run_steps_clash _ _ _ T (fun x => steps_no_raise s x E) Ig S N).
    assert (B : forall x, (py2_only x \/ py3_only x) -> (x = start s \/ rule_in (steps e s) x) -> triggered (bps_of e) s x).
    { intros x K [->|I].
      - exfalso. unfold start, py2_only, py3_only in K. destruct (has_flag s FPrintV2); simpl in K; intuition congruence.
      - apply triggered_start. right. apply steps_rule. auto. }
    assert (B' : forall x, (py2_only x \/ py3_only x) -> triggered (bps_of e) s x -> rule_in (steps e s) x).
    { intros x K I. apply triggered_start in I as [[_ ->]|I]; [|apply steps_rule; auto].
      exfalso. unfold py2_only, py3_only in K. simpl in K. intuition congruence. }
    split.
    - intros (a & b & A & C & [[K K']|[K K']]).
      + exists a, b. auto 8.
      + exists b, a. auto 8.
    - intros (a & b & A & C & K & K'). exists a, b. split; [|split]; auto. left. auto.
  Qed.

  Lemma total : forall s, targets_given (e_cfg e) -> str_encodings s ->
    (exists m s', minimum_versions e s = Ok (m, s')) \/ (exists msg, minimum_versions e s = Err (InvalidVersion msg)).
  Proof.
    intros s T E. unfold minimum_versions, bindr. destruct (has_flag s FPrintV3); cbn [when].
    - destruct (print_ok 2 "print(expr)" None (Some (-1)) (Some (Some (2, 0), Some (3, 0))) None s T) as (s' & P & _). rewrite P.
      apply run_steps_total; auto. intros x. apply steps_no_raise; auto.
    - cbn. apply run_steps_total; auto. intros x. apply steps_no_raise; auto.
  Qed.

  Lemma join_unique : forall P r r', is_join_of P r -> is_join_of P r' -> r = r'.
  Proof.
    intros P r r' (A & B & C) (A' & B' & C'). apply mins_le_antisym; auto.
  Qed.

  Lemma nothing : forall s m s', minimum_versions e s = Ok (m, s') -> (forall v, ~ triggered (bps_of e) s v) -> m = zero_mins.
  Proof.
    intros s m s' H N. apply join_of in H. eapply join_unique; eauto. split; [apply mins_le_refl|]. split; auto.
    intros v T. destruct (N v T).
  Qed.
End S.

Lemma documented_fun : forall f m m', documented f m -> documented f m' -> m = m'.
Proof. intros f m m' A B. destruct A; inversion B; reflexivity. Qed.

Lemma documented_total : forall f, f <> FModuleDir -> f <> FModuleGetattr -> f <> FMaybeAnnotations -> exists m, documented f m.
Proof. intros f A B C. destruct f; try congruence; eexists; constructor. Qed.

(** ** C46 *)

Lemma covers_by_name : forall k n m, In (k, m) codecs_encodings_reqs -> ~ proper_part n -> (covers k n <-> by_name k n).
Proof.
  intros [l|s] n m I P; simpl; [tauto|]. split.
  - intros (a & b & E). destruct (String.string_dec s n) as [->|N]; auto. exfalso. apply P. exists s, a, b, m. auto.
  - intros ->. exists "", "". rewrite app_nil_s. reflexivity.
Qed.

Lemma only_encoding_join : forall e s n m s', only_encoding s n -> minimum_versions e s = Ok (m, s') ->
  is_join_of (fun v => exists k, In (k, v) codecs_encodings_reqs /\ covers k (lower n)) m.
Proof.
  intros e s n m s' (F & A1 & A2 & A3 & A4 & A5 & A6 & A7 & A8 & C) H. apply join_of in H.
  assert (X : forall v, triggered (bps_of e) s v <-> exists k, In (k, v) codecs_encodings_reqs /\ covers k (lower n)).
  { intros v. split.
    - intros T. destruct T as [f v I D|d v I J|d v I J|d v I J|n' v I J|n' k v I J E|n' v I J|n' v I J|f k v I J|n' v I J].
      1-5: rewrite ?F, ?A1, ?A2, ?A3, ?A4 in I; destruct I.
      2-5: rewrite ?A5, ?A6, ?A7, ?A8 in I; destruct I.
      rewrite C in I. destruct I as [I|[]]. injection I as <-. eauto.
    - intros (k & I & J). eapply trig_encoding; eauto. rewrite C. simpl; auto. }
  destruct H as (Z & U & L). split; auto. split.
  - intros v V. apply U, X, V.
  - intros u Zu Vu. apply L; auto. intros v V. apply Vu, X, V.
Qed.

(** ** More of C35, C36 *)

Lemma opt_fold : forall f (F : forall a b : mins, f (mjoin a b) = opt_max (f a) (f b)) vs (m : mins),
  (f (fold_left mjoin vs m) = None <-> exists r, (r = m \/ In r vs) /\ f r = None) /\
  forall v, f (fold_left mjoin vs m) = Some v ->
    (exists r, (r = m \/ In r vs) /\ f r = Some v) /\ forall r w, (r = m \/ In r vs) -> f r = Some w -> ver_le w v.
Proof.
  intros f F. induction vs as [|x vs IH]; intros m; cbn [fold_left].
  - split.
    + split; [intros H; exists m; auto | intros (r & [->|[]] & H); auto].
    + intros v H. split; [exists m; auto|]. intros r w [->|[]] E. rewrite H in E. injection E as <-. apply ver_le_refl.
  - destruct (IH (mjoin m x)) as [A B]. clear IH. split.
    + rewrite A. split.
      * intros (r & [->|I] & E); [|exists r; simpl; auto]. rewrite F in E.
        destruct (f m) eqn:M; [|exists m; auto]. destruct (f x) eqn:X; [discriminate|]. exists x. simpl; auto.
      * intros (r & [->|[<-|I]] & E).
        -- exists (mjoin m x). split; auto. rewrite F, E. reflexivity.
        -- exists (mjoin m x). split; auto. rewrite F, E. destruct (f m); reflexivity.
        -- exists r. auto.
    + intros v H. destruct (B v H) as [(r & R & E) U]. split.
      * destruct R as [->|R]; [|exists r; simpl; auto]. rewrite F in E.
        destruct (f m) as [a|] eqn:M; [|discriminate]. destruct (f x) as [b|] eqn:X; [|discriminate]. simpl in E.
        unfold vmax in E. destruct (vltb a b); [exists x | exists m]; simpl; split; auto; congruence.
      * intros r' w R' E'. destruct R' as [->|[<-|R']]; [| |apply (U r' w); auto].
        -- destruct (f (mjoin m x)) as [z|] eqn:Z.
           ++ assert (K := U _ z (or_introl eq_refl) Z). rewrite F, E' in Z.
              destruct (f x) as [b|]; [|discriminate]. injection Z as <-. eapply ver_le_trans; [|exact K].
              apply (opt_max_ub (Some w) (Some b)).
           ++ exfalso. assert (N := proj2 A (ex_intro _ _ (conj (or_introl eq_refl) Z))). congruence.
        -- destruct (f (mjoin m x)) as [z|] eqn:Z.
           ++ assert (K := U _ z (or_introl eq_refl) Z). rewrite F, E' in Z.
              destruct (f m) as [b|]; [|discriminate]. injection Z as <-. eapply ver_le_trans; [|exact K].
              apply (opt_max_ub (Some b) (Some w)).
           ++ exfalso. assert (N := proj2 A (ex_intro _ _ (conj (or_introl eq_refl) Z))). congruence.
Qed.

Lemma per_major : forall e s m s', minimum_versions e s = Ok (m, s') ->
  (fst m = None <-> exists r, triggered (bps_of e) s r /\ fst r = None) /\
  (snd m = None <-> exists r, triggered (bps_of e) s r /\ snd r = None) /\
  (forall v, fst m = Some v -> (v = (0, 0) \/ exists r, triggered (bps_of e) s r /\ fst r = Some v) /\
     forall r w, triggered (bps_of e) s r -> fst r = Some w -> ver_le w v) /\
  (forall v, snd m = Some v -> (v = (0, 0) \/ exists r, triggered (bps_of e) s r /\ snd r = Some v) /\
     forall r w, triggered (bps_of e) s r -> snd r = Some w -> ver_le w v).
Proof.
  intros e s m s' H. apply minimum_versions_steps in H as [s1 H]. apply run_steps_ok in H as (_ & vs & V & ->).
  assert (T : forall r, (r = start s \/ In r vs) <-> (r = zero_mins /\ ~ In FPrintV2 (s_flags s)) \/ triggered (bps_of e) s r).
  { intros r. rewrite triggered_start, V, steps_rule. unfold start. rewrite <- has_flag_In. destruct (has_flag s FPrintV2).
    - intuition congruence.
    - split; [intros [->|]; auto; left; split; auto; discriminate | intros [[-> _]|[[K _]|K]]; auto; discriminate]. }
  assert (G : forall f : mins -> option ver, (forall a b, f (mjoin a b) = opt_max (f a) (f b)) -> f zero_mins = Some (0, 0) ->
    (forall r w, triggered (bps_of e) s r -> f r = Some w -> ver_le (0, 0) w) ->
    (f (fold_left mjoin vs (start s)) = None <-> exists r, triggered (bps_of e) s r /\ f r = None) /\
    (forall v, f (fold_left mjoin vs (start s)) = Some v ->
       (v = (0, 0) \/ exists r, triggered (bps_of e) s r /\ f r = Some v) /\
       forall r w, triggered (bps_of e) s r -> f r = Some w -> ver_le w v)).
  { intros f F Z N. destruct (opt_fold f F vs (start s)) as [A B]. split.
    - rewrite A. split.
      + intros (r & R & E). apply T in R as [[-> _]|R]; [congruence | eauto].
      + intros (r & R & E). exists r. split; auto. apply T. auto.
    - intros v K. destruct (B v K) as [(r & R & E) U]. split.
      + apply T in R as [[-> _]|R]; [left; congruence | right; eauto].
      + intros r' w R'. apply U, T. auto. }
  assert (W : forall r, triggered (bps_of e) s r -> wf_part 2 (fst r) /\ wf_part 3 (snd r)).
  { intros r R. apply triggered_wf in R as [(P & Q & _)| ->]; [auto|]. split; [right | left]; simpl; lia || auto. }
  assert (P : forall n o w, 0 < n -> wf_part n o -> o = Some w -> ver_le (0, 0) w).
  { intros n o w Hn K ->. destruct K as [->|[K K']]; unfold ver_le; simpl; lia. }
  destruct (G fst) as [A B]; auto.
  { intros r w R E. apply (P 2 (fst r)); auto; [lia|]. apply W; auto. }
  destruct (G snd) as [C D]; auto.
  { intros r w R E. apply (P 3 (snd r)); auto; [lia|]. apply W; auto. }
Qed.

Lemma ignored : forall e s, targets_given (e_cfg e) -> str_encodings s -> c_ignore_incomp (e_cfg e) = true ->
  exists m s', minimum_versions e s = Ok (m, s').
Proof.
  intros e s T E I. destruct (total e s T E) as [H|[msg H]]; auto. exfalso.
  unfold minimum_versions, bindr in H. destruct (when _ _ s) as [s1|x] eqn:W.
  - revert H. generalize (if has_flag s FPrintV2 then (Some (2, 0), Some (0, 0)) else zero_mins : mins).
    assert (R := fun x => steps_no_raise e s x E). revert R. clear W. revert s1. generalize (steps e s).
    induction l as [|[v i ent|x] l IH]; cbn [run_steps]; intros s1 R m H.
    + discriminate.
    + destruct (add_versions_cases e v i ent m s1 T) as (s2 & refs & A). rewrite A, I in H. unfold bindr in H.
      rewrite combine2_true in H. apply (IH _ (fun x K => R x (or_intror K)) _ H).
    + apply (R x). left; auto.
  - destruct (has_flag s FPrintV3); cbn [when] in W; [|discriminate].
    destruct (print_ok e 2 "print(expr)" None (Some (-1)) (Some (Some (2, 0), Some (3, 0))) None s T) as (s' & P & _).
    congruence.
Qed.

Lemma alone : forall e s m s' f d, minimum_versions e s = Ok (m, s') ->
  (forall r, triggered (bps_of e) s r <-> documented f r) -> documented f d -> m = d.
Proof.
  intros e s m s' f d H T D. apply join_of in H. eapply join_unique; [exact H|].
  split; [|split].
  - destruct D; unfold no2, both, mins_le; simpl; unfold ver_le; simpl; lia.
  - intros r R. apply T in R. rewrite (documented_fun _ _ _ R D). apply mins_le_refl.
  - intros u _ U. apply U, T, D.
Qed.

Lemma encoding_by_name : forall e s n m s', only_encoding s n -> ~ proper_part (lower n) ->
  minimum_versions e s = Ok (m, s') ->
  is_join_of (fun v => exists k, In (k, v) codecs_encodings_reqs /\ by_name k (lower n)) m.
Proof.
  intros e s n m s' O N H. destruct (only_encoding_join e s n m s' O H) as (Z & U & L).
  split; auto. split.
  - intros v (k & I & B). apply U. exists k. split; auto. apply (covers_by_name _ _ _ I N). auto.
  - intros u Zu Vu. apply L; auto. intros v (k & I & C). apply Vu. exists k. split; auto. apply (covers_by_name _ _ _ I N). auto.
Qed.

Lemma not_part : forall n k a b m, (5 < String.length n)%nat -> In (EncSubstr k, m) codecs_encodings_reqs -> k = a +++ n +++ b -> False.
Proof.
  intros n k a b m L I E. assert (K : (String.length k <= 5)%nat).
  { simpl in I. repeat (destruct I as [I|I]; [try discriminate; injection I as <- _; simpl; lia|]). destruct I. }
  rewrite E, !length_app_s in K. lia.
Qed.
