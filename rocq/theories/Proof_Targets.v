(** Several targets for one major version. Lemmas for C07, C54, C73. *)
From Verif Require Import PyBase PyLemmas Utility Config Main Spec_Base Spec_Utility Spec_Rules Spec_MinVersions Spec_Main Spec_Targets Proof_Utility Proof_Report.

Lemma counts_In {A} (maj : A -> Z) l x : counts maj l x -> In x l.
Proof. intros (a & b & -> & _). apply in_elt. Qed.
Lemma last_counts {A} (maj : A -> Z) l m x : last_by_major maj l m = Some x <-> counts maj l x /\ maj x = m.
Proof.
  revert x. induction l as [|y l IH]; intros x; cbn [last_by_major].
  - split; [discriminate|]. intros [(a & b & E & _) _]. destruct a; discriminate.
  - destruct (last_by_major maj l m) as [z|] eqn:E.
    + split.
      * intros H. injection H as <-. destruct (proj1 (IH z) eq_refl) as [(a & b & -> & N) M]. split; [exists (y :: a), b; auto|exact M].
      * intros [(a & b & Q & N) M]. apply IH. split; [|exact M]. destruct a as [|y' a]; injection Q as -> ->; [|exists a, b; auto].
        exfalso. apply last_by_major_In in E as [I K]. exact (N z I ltac:(congruence)).
    + apply last_by_major_None in E. destruct (Z.eqb_spec (maj y) m) as [M|M].
      * split.
        -- intros H. injection H as <-. split; [|exact M]. exists [], l. split; [reflexivity|]. intros z I K. apply E. rewrite <- M, <- K. apply in_map, I.
        -- intros [(a & b & Q & N) K]. destruct a as [|y' a]; injection Q as -> ->; [reflexivity|]. exfalso. apply E. rewrite <- K. apply in_map, in_elt.
      * split; [discriminate|]. intros [(a & b & Q & N) K]. destruct a as [|y' a]; injection Q as -> ->; [contradiction|].
        exfalso. apply E. rewrite <- K. apply in_map, in_elt.
Qed.
Lemma counts_exists {A} (maj : A -> Z) l x : In x l -> exists y, counts maj l y /\ maj y = maj x.
Proof.
  intros I. destruct (last_by_major maj l (maj x)) as [y|] eqn:E; [exists y; apply last_counts, E|].
  apply last_by_major_None in E. exfalso. apply E, in_map, I.
Qed.
Lemma counts_one {A} (maj : A -> Z) l x : one_per_major maj l -> (counts maj l x <-> In x l).
Proof.
  intros O. split; [apply counts_In|]. intros I. apply (last_counts maj l (maj x)). exact (last_by_major_unique maj l x O I).
Qed.

Lemma compare_counts reqs targets : compare_requirements reqs targets = true <->
  targets <> [] /\ forall t, target_counts targets t -> exists r, counts fst reqs r /\ target_ok t r.
Proof.
  unfold compare_requirements. cbv zeta. unfold target_counts. set (maj := fun t : target => fst (snd t)).
  change (map (fun t : bool * (Z * Z) => fst (snd t)) targets) with (map maj targets).
  set (has := fun m => match last_by_major fst reqs m with Some _ => true | None => false end).
  assert (HAS : forall m, has m = true <-> exists r, counts fst reqs r /\ fst r = m).
  { intros m. unfold has. destruct (last_by_major fst reqs m) as [r|] eqn:E.
    - split; auto. intros _. exists r. apply last_counts, E.
    - split; [discriminate|]. intros (r & H). apply last_counts in H. congruence. }
  set (common := filter has (map maj targets)).
  assert (CM : forall m, In m common <-> In m (map maj targets) /\ has m = true) by (intros m; unfold common; apply filter_In).
  assert (EX : existsb (fun m => negb (existsb (Z.eqb m) common)) (map maj targets) = true <-> exists t, In t targets /\ has (maj t) = false).
  { rewrite existsb_exists. split.
    - intros (m & Hm & K). apply in_map_iff in Hm as (t & <- & Ht). exists t. split; [exact Ht|]. apply not_true_iff_false. intros C.
      apply negb_true_iff in K. rewrite <- not_true_iff_false in K. apply K. apply existsb_exists. exists (maj t).
      split; [apply CM; split; [apply in_map, Ht|exact C]|apply Z.eqb_refl].
    - intros (t & Ht & K). exists (maj t). split; [apply in_map, Ht|]. apply negb_true_iff, not_true_iff_false. intros C.
      apply existsb_exists in C as (m & Hm & E). apply Z.eqb_eq in E. subst m. apply CM in Hm as [_ Hm]. congruence. }
  assert (ANS : (targets <> [] /\ forall t, counts maj targets t -> exists r, counts fst reqs r /\ target_ok t r) <->
    targets <> [] /\ (forall t, In t targets -> has (maj t) = true) /\
    forall t, counts maj targets t -> exists r, counts fst reqs r /\ target_ok t r).
  { split; [|tauto]. intros [NE H]. split; [exact NE|]. split; [|exact H]. intros t I.
    destruct (counts_exists maj targets t I) as (u & C & M). destruct (H u C) as (r & R & F & _). apply HAS. exists r. split; [exact R|]. rewrite <- M. exact F. }
  rewrite ANS. clear ANS. clearbody common. destruct common as [|m0 cs] eqn:EC.
  - split; [discriminate|]. intros (NE & H & _). exfalso. destruct targets as [|t ts]; [congruence|].
    apply (CM (maj t)). split; [left; reflexivity|apply H; left; reflexivity].
  - assert (NC : common <> []) by congruence. rewrite <- EC in *. clear EC m0 cs. destruct (existsb _ (map maj targets)) eqn:EE.
    + split; [discriminate|]. intros (_ & H & _). exfalso. destruct (proj1 EX eq_refl) as (t & Ht & K). rewrite (H t Ht) in K. discriminate.
    + assert (ALL : forall t, In t targets -> has (maj t) = true).
      { intros t Ht. destruct (has (maj t)) eqn:K; [reflexivity|]. assert (C : false = true) by (apply EX; eauto). discriminate. }
      rewrite forallb_forall. split.
      * intros H. split; [|split; [exact ALL|]].
        { intros ->. destruct common as [|m ms]; [auto|]. destruct (proj1 (CM m)) as [[] _]. left; reflexivity. }
        intros t C. assert (I := counts_In _ _ _ C). assert (K : In (maj t) common) by (apply CM; split; [apply in_map, I|apply ALL, I]).
        specialize (H _ K). rewrite (proj2 (last_counts maj targets (maj t) t) (conj C eq_refl)) in H.
        destruct (proj1 (HAS (maj t)) (ALL t I)) as (r & R & F). exists r. split; [exact R|].
        rewrite (proj2 (last_counts fst reqs (maj t) r) (conj R F)) in H. destruct t as [ex v]. unfold target_ok, maj in *. cbn [fst snd] in *.
        split; [exact F|]. apply andb_prop in H as [H1 H2]. destruct ex; cbn in H1, H2.
        -- rewrite negb_involutive in H1. apply veqb_eq in H1. auto.
        -- apply negb_true_iff in H2. apply vltb_ge in H2. unfold ver_le. lia.
      * intros (_ & _ & H) m K. apply CM in K as [K1 K2]. destruct (last_by_major maj targets m) as [[ex v]|] eqn:ET; [|reflexivity].
        apply last_counts in ET as [C M]. destruct (H _ C) as (r & R & F & Ok). cbn [fst snd] in *.
        assert (M' : fst r = m) by (rewrite F; exact M). rewrite (proj2 (last_counts fst reqs m r) (conj R M')).
        destruct ex; cbn.
        -- subst r. rewrite (proj2 (veqb_eq v v) eq_refl). reflexivity.
        -- unfold ver_le in Ok. rewrite (proj2 (vltb_ge v r)) by lia. reflexivity.
Qed.

Lemma compare_passed m targets : wf_part 2 (fst m) -> wf_part 3 (snd m) -> (forall t, In t targets -> in_range (snd t)) ->
  (compare_requirements (reqs_of m) targets = true <-> targets <> [] /\ targets_passed targets m).
Proof.
  intros W2 W3 R.
  assert (NZ : forall t, In t targets -> fst (snd t) <> 0).
  { intros t T. destruct (R t T) as [A B]. unfold ver_le, ver_lt in *. simpl in *. lia. }
  rewrite <- compare_filter by auto. rewrite compare_counts.
  assert (O : one_per_major fst (filter (fun v => negb (is_zero_ver v)) (reqs_of m))).
  { unfold one_per_major. destruct m as [[a|] [b|]]; unfold reqs_of in *; cbn [somes fst snd filter map] in *;
      repeat match goal with |- context [is_zero_ver ?x] => destruct (is_zero_ver x) eqn:?E end; cbn [negb map]; repeat constructor; auto.
    intros [K|[]]. destruct W2 as [->|[W2 _]]; [discriminate|]. destruct W3 as [->|[W3 _]]; [discriminate|]. lia. }
  assert (Q : forall t v, In t targets -> (counts fst (filter (fun v => negb (is_zero_ver v)) (reqs_of m)) v /\ target_ok t v <-> required m v /\ target_ok t v)).
  { intros t v T. rewrite (counts_one fst _ v O), filter_In, reqs_In. split; [tauto|]. intros [A B]. split; auto. split; auto.
    apply negb_true_iff, not_true_is_false. intros Z. unfold is_zero_ver in Z. apply veqb_eq in Z. subst v.
    destruct B as [B _]. simpl in B. apply (NZ t T). auto. }
  split; intros [A B]; (split; [exact A|]); intros t T; assert (I := counts_In _ _ _ T); destruct (B t T) as (v & V); exists v; apply (Q t v I); exact V.
Qed.

Lemma failed_passes c m : wf_part 2 (fst m) -> wf_part 3 (snd m) -> (forall t, In t (c_targets c) -> in_range (snd t)) ->
  (targets_failed c (reqs_of m) = false <-> passes c m).
Proof.
  intros W2 W3 R. unfold targets_failed, passes. rewrite <- all_inconclusive_iff.
  assert (C := compare_passed m (c_targets c) W2 W3 R). destruct (c_targets c) as [|t ts] eqn:T.
  - cbn [List.length Nat.ltb Nat.leb andb]. tauto.
  - change (0 <? List.length (t :: ts))%nat with true. cbn [andb].
    destruct (all_inconclusive c (reqs_of m)); cbn [negb andb]; [tauto|].
    destruct (compare_requirements (reqs_of m) (t :: ts)); cbn [negb].
    + destruct C as [C _]. destruct (C eq_refl) as [_ C']. tauto.
    + split; [discriminate|]. intros [K|[K|K]]; try discriminate. destruct C as [_ C]. rewrite C; [auto|]. split; [discriminate|auto].
Qed.

Lemma passes_success c m : one_per_major (fun t : target => fst (snd t)) (c_targets c) -> (passes c m <-> success c m).
Proof.
  intros O. unfold passes, success, targets_passed, targets_met, target_counts.
  assert (E := fun t => counts_one (fun t : target => fst (snd t)) (c_targets c) t O).
  split; (intros [A|[A|A]]; [left; exact A|right; left; intros t I; apply A, E, I|right; right; exact A]).
Qed.
