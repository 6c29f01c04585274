(** Lemmas for C51-C53, C57, C58: from the results of files to the summary. *)
From Coq Require Import Permutation Sorted.
From Verif Require Import PyBase PyLemmas Utility RulesData Rules Config Formats Paths AstKinds Ast State Visitor
  MinVersions Parser Pool Processor Spec_Base Spec_Utility Proof_Utility Spec_Rules Proof_Rules Spec_MinVersions
  Proof_MinVersions Proof_Pool Spec_Main.

(** ** Lists of verdicts *)

Definition vs_of (r : option presult) : list mins :=
  match r with Some r => match r_mins r with MVers m => [m] | _ => [] end | None => [] end.
Definition vlist (rs : list (option presult)) : list mins := flat_map vs_of rs.

Lemma vlist_In : forall rs m, In m (vlist rs) <-> verdict_in rs m.
Proof.
  intros rs m. unfold vlist, verdict_in, counted. rewrite in_flat_map. split.
  - intros (x & I & H). destruct x as [r|]; [|destruct H]. simpl in H. destruct (r_mins r) eqn:E; try destruct H as [].
    + subst. eauto.
    + destruct H.
  - intros (r & I & E). exists (Some r). split; auto. simpl. rewrite E. simpl; auto.
Qed.

Fixpoint gfold (ig : bool) (m : mins) (l : list mins) : mins :=
  match l with
  | [] => m
  | v :: r => gfold ig (if negb ig && clash m v then m else mjoin m v) r
  end.
Fixpoint gclash (ig : bool) (m : mins) (l : list mins) : bool :=
  match l with
  | [] => false
  | v :: r => (negb ig && clash m v) || gclash ig (if negb ig && clash m v then m else mjoin m v) r
  end.

Definition is_none (r : option presult) : bool :=
  match r with Some r => match r_mins r with MNone => true | _ => false end | None => false end.

(** ** The loop *)

Lemma vmem_In : forall v l, vmem v l = true <-> In v l.
Proof.
  intros. unfold vmem. rewrite existsb_exists. split.
  - intros (x & I & E). apply veqb_eq in E. subst; auto.
  - intros I. exists v. split; auto. apply veqb_eq; auto.
Qed.

Lemma add_unique_In : forall o l v, In v (add_unique o l) <-> In v l \/ (o = Some v /\ ver_lt (0, 0) v).
Proof.
  intros [w|] l v; simpl.
  - destruct (vltb (0, 0) w) eqn:L.
    + apply vltb_lt in L. destruct (vmem w l) eqn:M.
      * apply vmem_In in M. split; auto. intros [H|[E _]]; auto. injection E as <-. auto.
      * rewrite in_app_iff. simpl. split.
        -- intros [H|[<-|[]]]; auto. 
        -- intros [H|[E _]]; auto. injection E as <-. auto.
    + split; auto. intros [H|[E K]]; auto. injection E as <-. exfalso. apply vltb_ge in L. unfold ver_lt in K. simpl in *. lia.
  - split; auto. intros [H|[E _]]; auto. discriminate.
Qed.

Lemma add_unique_NoDup : forall o l, NoDup l -> NoDup (add_unique o l).
Proof.
  intros [w|] l N; simpl; auto. destruct (vltb (0, 0) w); auto. destruct (vmem w l) eqn:M; auto.
  apply NoDup_snoc; auto. intros I. apply vmem_In in I. congruence.
Qed.

Lemma set_union_In : forall b a x, In x (set_union a b) <-> In x a \/ In x b.
Proof.
  unfold set_union. induction b as [|y b IH]; simpl; intros a x; [tauto|]. rewrite IH, set_add_In. intuition.
Qed.
Lemma set_union_NoDup : forall b a, NoDup a -> NoDup (set_union a b).
Proof. unfold set_union. induction b as [|y b IH]; simpl; intros; auto. apply IH, set_add_NoDup; auto. Qed.

Section Loop.
  Variable c : config.
  Notation ig := (c_ignore_incomp c).

  Record loop_rel (rs : list (option presult)) (a a' : agg) : Prop := {
    lr_mins : a_mins a' = gfold ig (a_mins a) (vlist rs);
    lr_incomp : a_incomp a' = a_incomp a || existsb is_none rs || gclash ig (a_mins a) (vlist rs);
    lr_unique : forall v, In v (a_unique a') <-> In v (a_unique a) \/
      (ver_lt (0, 0) v /\ exists m, verdict_in rs m /\ (fst m = Some v \/ snd m = Some v));
    lr_unique_nd : NoDup (a_unique a) -> NoDup (a_unique a');
    lr_bps : forall b, In b (a_bps a') <-> In b (a_bps a) \/ exists r m, counted rs r m /\ In b (r_bps r);
    lr_bps_nd : NoDup (a_bps a) -> NoDup (a_bps a');
    lr_novm : a_novm a' = true <-> a_novm a = true \/ exists r m, counted rs r m /\ r_novermin r <> [];
    lr_maybe : a_maybe a' = true <-> a_maybe a = true \/ exists r m, counted rs r m /\ r_maybe r = true
  }.

  Lemma verdict_in_cons : forall x rs m, verdict_in (x :: rs) m <-> In m (vs_of x) \/ verdict_in rs m.
  Proof. intros. rewrite <- !vlist_In. simpl. rewrite in_app_iff. tauto. Qed.

  Lemma counted_cons : forall x rs r m, counted (x :: rs) r m <-> (x = Some r /\ r_mins r = MVers m) \/ counted rs r m.
  Proof. unfold counted. simpl. intuition. Qed.

  Lemma combine2_cases : forall a b, combine2 ig None a b = 
    if negb ig && clash a b then Err (InvalidVersion (incomp_message a b None)) else Ok (mjoin a b).
  Proof. intros. unfold combine2. destruct (negb ig && clash a b); reflexivity. Qed.

  Lemma agg_step_rel : forall x a, (forall r, x = Some r -> r_mins r <> MEmpty) ->
    exists a', agg_step c x a = Ok a' /\ loop_rel [x] a a'.
  Proof.
    intros [r|] a N; cbn [agg_step].
    2: { exists a. split; auto. constructor; simpl; auto; try tauto.
         - rewrite !orb_false_r. reflexivity.
         - intros v. split; auto. intros [H|(_ & m & (r & [K|[]] & _) & _)]; auto; discriminate.
         - intros b. split; auto. intros [H|(r & m & ([K|[]] & _) & _)]; auto; discriminate.
         - split; auto. intros [H|(r & m & ([K|[]] & _) & _)]; auto; discriminate.
         - split; auto. intros [H|(r & m & ([K|[]] & _) & _)]; auto; discriminate. }
    specialize (N r eq_refl).
    assert (V : forall m, verdict_in [Some r] m <-> r_mins r = MVers m).
    { intros m. unfold verdict_in, counted. split.
      - intros (r' & [K|[]] & E). injection K as <-. auto.
      - intros E. exists r. simpl; auto. }
    assert (C : forall r' m, counted [Some r] r' m <-> r' = r /\ r_mins r = MVers m).
    { intros r' m. unfold counted. simpl. split.
      - intros ([K|[]] & E). injection K as <-. auto.
      - intros [-> E]. auto. }
    destruct (r_mins r) as [| |m] eqn:E; [| congruence |].
    - eexists. split; [reflexivity|].
      assert (VL : vlist [Some r] = []) by (unfold vlist; simpl; rewrite E; reflexivity).
      constructor; rewrite ?VL; cbn [a_mins a_incomp a_unique a_bps a_novm a_maybe gfold gclash existsb is_none]; auto.
      + rewrite E. rewrite !orb_true_r. reflexivity.
      + intros v. split; auto. intros [H|(_ & m & K & _)]; auto. apply V in K. discriminate.
      + intros b. split; auto. intros [H|(r' & m & K & _)]; auto. apply C in K as [_ K]. discriminate.
      + split; auto. intros [H|(r' & m & K & _)]; auto. apply C in K as [_ K]. discriminate.
      + split; auto. intros [H|(r' & m & K & _)]; auto. apply C in K as [_ K]. discriminate.
    - rewrite combine2_cases.
      assert (VL : vlist [Some r] = [m]) by (unfold vlist; simpl; rewrite E; reflexivity).
      set (uniq := add_unique (snd m) (add_unique (fst m) (a_unique a))).
      assert (U : forall v, In v uniq <-> In v (a_unique a) \/
        (ver_lt (0, 0) v /\ exists m', verdict_in [Some r] m' /\ (fst m' = Some v \/ snd m' = Some v))).
      { intros v. unfold uniq. rewrite !add_unique_In. split.
        - intros [[H|[H K]]|[H K]]; auto; right; split; auto; exists m; (split; [apply V; auto | auto]).
        - intros [H|(K & m' & M & H)]; auto. apply V in M. injection M as <-. tauto. }
      assert (Und : NoDup (a_unique a) -> NoDup uniq) by (intros; unfold uniq; auto using add_unique_NoDup).
      assert (B : forall b, In b (set_union (a_bps a) (r_bps r)) <-> In b (a_bps a) \/ exists r' m', counted [Some r] r' m' /\ In b (r_bps r')).
      { intros b. rewrite set_union_In. split; intros [H|H]; auto.
        - right. exists r, m. split; auto. apply C. auto.
        - destruct H as (r' & m' & K & H). apply C in K as [-> _]. auto. }
      assert (Nv : a_novm a || negb (List.length (r_novermin r) =? 0)%nat = true <->
        a_novm a = true \/ exists r' m', counted [Some r] r' m' /\ r_novermin r' <> []).
      { rewrite orb_true_iff, negb_true_iff. split; intros [H|H]; auto; right.
        - exists r, m. split; [apply C; auto|]. destruct (r_novermin r); [discriminate | congruence].
        - destruct H as (r' & m' & K & H). apply C in K as [-> _]. destruct (r_novermin r); [congruence | reflexivity]. }
      assert (Mb : a_maybe a || r_maybe r = true <-> a_maybe a = true \/ exists r' m', counted [Some r] r' m' /\ r_maybe r' = true).
      { rewrite orb_true_iff. split; intros [H|H]; auto; right.
        - exists r, m. split; [apply C; auto|auto].
        - destruct H as (r' & m' & K & H). apply C in K as [-> _]. auto. }
      destruct (negb ig && clash (a_mins a) m) eqn:K; (eexists; split; [reflexivity|]); constructor;
        rewrite ?VL; cbn [a_mins a_incomp a_unique a_bps a_novm a_maybe gfold gclash existsb is_none]; auto using set_union_NoDup;
        try (rewrite K; reflexivity); rewrite E, K, ?orb_false_r, ?orb_true_r; auto.
  Qed.

  Lemma gfold_app : forall l l' m, gfold ig m (l ++ l') = gfold ig (gfold ig m l) l'.
  Proof. induction l; simpl; auto. Qed.
  Lemma gclash_app : forall l l' m, gclash ig m (l ++ l') = gclash ig m l || gclash ig (gfold ig m l) l'.
  Proof. induction l as [|v l IH]; simpl; intros; auto. rewrite IH, orb_assoc. reflexivity. Qed.

  Lemma loop_rel_nil : forall a, loop_rel [] a a.
  Proof.
    intros a. constructor; simpl; auto.
    - rewrite !orb_false_r. reflexivity.
    - intros v. split; auto. intros [H|(_ & m & (r & [] & _) & _)]; auto.
    - intros b. split; auto. intros [H|(r & m & ([] & _) & _)]; auto.
    - split; auto. intros [H|(r & m & ([] & _) & _)]; auto.
    - split; auto. intros [H|(r & m & ([] & _) & _)]; auto.
  Qed.

  Lemma loop_rel_app : forall x y a b d, loop_rel x a b -> loop_rel y b d -> loop_rel (x ++ y) a d.
  Proof.
    intros x y a b d X Y.
    assert (VL : vlist (x ++ y) = vlist x ++ vlist y) by (unfold vlist; apply flat_map_app).
    assert (V : forall m, verdict_in (x ++ y) m <-> verdict_in x m \/ verdict_in y m).
    { intros m. rewrite <- !vlist_In, VL, in_app_iff. tauto. }
    assert (C : forall r m, counted (x ++ y) r m <-> counted x r m \/ counted y r m).
    { intros r m. unfold counted. rewrite in_app_iff. tauto. }
    destruct X as [X1 X2 X3 X4 X5 X6 X7 X8], Y as [Y1 Y2 Y3 Y4 Y5 Y6 Y7 Y8].
    constructor.
    - rewrite Y1, X1, VL, gfold_app. reflexivity.
    - rewrite Y2, X2, X1, VL, gclash_app, existsb_app.
      destruct (a_incomp a), (existsb is_none x), (existsb is_none y), (gclash ig (a_mins a) (vlist x)); simpl; auto;
        rewrite ?orb_true_r; auto.
    - intros v. rewrite Y3, X3. split.
      + intros [[H|(L & m & K & P)]|(L & m & K & P)]; auto; right; split; auto; exists m; rewrite V; auto.
      + intros [H|(L & m & K & P)]; auto. apply V in K as [K|K]; [left; right | right]; eauto.
    - auto.
    - intros v. rewrite Y5, X5. split.
      + intros [[H|(r & m & K & P)]|(r & m & K & P)]; auto; right; exists r, m; rewrite C; auto.
      + intros [H|(r & m & K & P)]; auto. apply C in K as [K|K]; [left; right | right]; eauto.
    - auto.
    - rewrite Y7, X7. split.
      + intros [[H|(r & m & K & P)]|(r & m & K & P)]; auto; right; exists r, m; rewrite C; auto.
      + intros [H|(r & m & K & P)]; auto. apply C in K as [K|K]; [left; right | right]; eauto.
    - rewrite Y8, X8. split.
      + intros [[H|(r & m & K & P)]|(r & m & K & P)]; auto; right; exists r, m; rewrite C; auto.
      + intros [H|(r & m & K & P)]; auto. apply C in K as [K|K]; [left; right | right]; eauto.
  Qed.

  Lemma agg_loop_ok : forall rs a, toured rs -> exists a', agg_loop c (map Ok rs) a = (a', None) /\ loop_rel rs a a'.
  Proof.
    induction rs as [|x rs IH]; intros a T; cbn [map agg_loop].
    - exists a. split; auto. apply loop_rel_nil.
    - destruct (agg_step_rel x a) as (a1 & E & R).
      { intros r ->. apply T. left; auto. }
      rewrite E. destruct (IH a1) as (a2 & E2 & R2). { intros r I. apply T. right; auto. }
      exists a2. split; auto. apply (loop_rel_app [x] rs a a1 a2 R R2).
  Qed.

  Lemma agg_loop_empty : forall rs rest a, toured rs -> forall r, r_mins r = MEmpty ->
    snd (agg_loop c (map Ok rs ++ Ok (Some r) :: rest) a) = Some AssertionError.
  Proof.
    induction rs as [|x rs IH]; intros rest a T r E; cbn [map agg_loop app].
    - unfold agg_step. rewrite E. reflexivity.
    - destruct (agg_step_rel x a) as (a1 & E1 & R).
      { intros y ->. apply T. left; auto. }
      rewrite E1. apply IH; auto. intros y I. apply T. right; auto.
  Qed.
End Loop.

(** ** Joins *)

Lemma gfold_ignore : forall l m, gfold true m l = fold_left mjoin l m.
Proof. induction l; simpl; auto. Qed.

Lemma gclash_ignore : forall l m, gclash true m l = false.
Proof. induction l; simpl; auto. Qed.

Lemma clashing_sym : forall a b, clashing a b <-> clashing b a.
Proof. intros a b. unfold clashing. tauto. Qed.
Lemma clashing_irrefl : forall a, ~ clashing a a.
Proof. intros [a2 a3] K. unfold clashing, py2_only, py3_only in K. simpl in K. destruct a2, a3; intuition congruence. Qed.
Lemma zero_clash : forall m, ~ clashing zero_mins m.
Proof. intros m K. unfold clashing, py2_only, py3_only in K. simpl in K. intuition congruence. Qed.

Lemma gfold_compatible : forall l m, (forall a b, In a (m :: l) -> In b (m :: l) -> ~ clashing a b) ->
  gfold false m l = fold_left mjoin l m /\ gclash false m l = false.
Proof.
  induction l as [|v l IH]; intros m C; simpl; auto.
  assert (E : clash m v = false).
  { destruct (clash m v) eqn:E; auto. apply clash_iff in E. exfalso. apply (C m v); simpl; auto. }
  rewrite E. simpl. apply IH. intros a b [<-|A] [<-|B] K.
  - exact (clashing_irrefl _ K).
  - apply clashing_mjoin in K as [K|K]; [apply (C m b) | apply (C v b)]; simpl; auto.
  - apply clashing_sym, clashing_mjoin in K as [K|K]; apply clashing_sym in K; [apply (C a m) | apply (C a v)]; simpl; auto.
  - apply (C a b); simpl; auto.
Qed.

Lemma gclash_iff : forall l m, (forall a, In a (m :: l) -> a <> (None, None)) ->
  (gclash false m l = true <-> exists a b, In a (m :: l) /\ In b (m :: l) /\ clashing a b).
Proof.
  induction l as [|v l IH]; intros m N; simpl.
  - split; [discriminate|]. intros (a & b & [<-|[]] & [<-|[]] & K). destruct (clashing_irrefl _ K).
  - destruct (clash m v) eqn:E; simpl.
    + split; auto. intros _. apply clash_iff in E. exists m, v. auto.
    + assert (Cl : ~ clashing m v) by (rewrite <- clash_iff; congruence).
      assert (Nm : m <> (None, None)) by (apply N; simpl; auto).
      assert (Nv : v <> (None, None)) by (apply N; simpl; auto).
      rewrite IH.
      * split.
        -- assert (H1 : forall b, clashing (mjoin m v) b -> exists a, (a = m \/ a = v) /\ clashing a b).
           { intros b K. apply clashing_mjoin in K as [K|K]; eauto. }
           intros (a & b & A & B & K).
           assert (A' : exists a', (a' = m \/ a' = v \/ In a' l) /\ clashing a' b).
           { destruct A as [<-|A]; [|eauto]. destruct (H1 b K) as (a' & [->| ->] & K'); eauto. }
           destruct A' as (a' & A' & K'). apply clashing_sym in K'.
           assert (B' : exists b', (b' = m \/ b' = v \/ In b' l) /\ clashing b' a').
           { destruct B as [<-|B]; [|eauto]. destruct (H1 a' K') as (b' & [->| ->] & K''); eauto. }
           destruct B' as (b' & B' & K''). exists b', a'. split; [|split]; auto.
           ++ destruct B' as [->|[->|B']]; auto.
           ++ destruct A' as [->|[->|A']]; auto.
        -- intros (a & b & A & B & K).
           assert (H1 : forall a b, (m = a \/ v = a) -> clashing a b -> clashing (mjoin m v) b).
           { intros x y [<-|<-] Q; [apply mjoin_clash; auto|]. rewrite mjoin_comm. apply mjoin_clash; auto. rewrite clashing_sym. auto. }
           assert (A' : (m = a \/ v = a) \/ In a l) by tauto. assert (B' : (m = b \/ v = b) \/ In b l) by tauto.
           destruct A' as [A'|A'], B' as [B'|B'].
           ++ exfalso. destruct A' as [<-|<-], B' as [<-|<-]; auto; try (apply clashing_irrefl in K; auto).
              apply Cl, clashing_sym, K.
           ++ exists (mjoin m v), b. split; [simpl; auto|]. split; [simpl; auto|]. eapply H1; eauto.
           ++ exists a, (mjoin m v). split; [simpl; auto|]. split; [simpl; auto|]. apply clashing_sym. eapply H1; eauto. apply clashing_sym; auto.
           ++ exists a, b. simpl. auto.
      * intros a [<-|A]; [apply mjoin_not_none; auto | apply N; simpl; auto].
Qed.

Lemma gfold_greedy : forall l m, greedy m l (gfold false m l).
Proof.
  induction l as [|v l IH]; intros m; simpl; [constructor|].
  destruct (clash m v) eqn:E; simpl.
  - apply gr_skip; auto. apply clash_iff; auto.
  - eapply gr_take; [rewrite <- clash_iff; congruence | | apply IH].
    assert (K := combine2_join true None m v (mjoin m v) eq_refl). exact K.
Qed.

(** ** Results *)

Lemma analysed_map : forall h major c file how paths rs, analysed h major c file how paths rs ->
  map (fun p => snd (process_individual h major c p (file p) (how p))) paths = map Ok rs.
Proof. induction 1 as [|p r ps rs E _ IH]; simpl; auto. rewrite E, IH. reflexivity. Qed.

Lemma first_err_ok : forall {A} (rs : list A), first_err (map Ok rs) = None.
Proof. induction rs; simpl; auto. Qed.

Lemma run_results_ok : forall c n (rs : list (option presult)), 1 <= n ->
  run_results c n (map Ok rs) = agg_loop c (map Ok rs) agg_init.
Proof.
  intros c n rs N. unfold run_results. rewrite first_err_ok. destruct (n =? 1) eqn:E; auto.
  apply Z.eqb_neq in E. rewrite (proj2 (Z.ltb_ge n 1)) by lia. auto.
Qed.

Lemma isort_increasing : forall l, NoDup l -> increasing (isort ver_leb l).
Proof.
  intros l N. assert (S := isort_sorted ver_leb).
  assert (S' : StronglySorted (fun a b => ver_leb a b = true) (isort ver_leb l)).
  { apply S.
    - intros a b. unfold ver_leb. rewrite !vleb_le. lia.
    - intros a b d. unfold ver_leb. rewrite !vleb_le. lia. }
  apply (isort_NoDup ver_leb) in N. clear S. revert S' N. generalize (isort ver_leb l). clear l.
  induction l as [|v l IH]; intros S N; [constructor|]. inversion S; subst. inversion N; subst.
  destruct l as [|w l]; [constructor|]. constructor; auto.
  rewrite Forall_forall in H2. assert (L := H2 w (or_introl eq_refl)). unfold ver_leb in L. apply vleb_le in L.
  assert (v <> w) by (intros ->; apply H3; left; auto). unfold ver_lt. destruct v as [v1 v2], w as [w1 w2]. simpl in *.
  assert (v1 <> w1 \/ v2 <> w2) by (destruct (Z.eq_dec v1 w1); subst; auto; right; intros ->; auto). lia.
Qed.

Section Process.
  Variables (h : hooks) (major : Z) (c : config) (file : string -> fcontent) (how : string -> ending).

  Lemma process_ok : forall n paths rs, analysed h major c file how paths rs -> toured rs -> 1 <= n ->
    exists a, process h major c file how n paths = (a_out a, Ok (summary_of a)) /\ loop_rel c rs agg_init a.
  Proof.
    intros n paths rs A T N. unfold process. rewrite (analysed_map _ _ _ _ _ _ _ A), run_results_ok by auto.
    destruct (agg_loop_ok c rs agg_init T) as (a & E & R). rewrite E. eauto.
  Qed.

  Lemma summary_facts : forall rs a, loop_rel c rs agg_init a ->
    summarises rs (summary_of a) /\ increasing (m_unique (summary_of a)) /\ NoDup (m_bps (summary_of a)).
  Proof.
    clear h major file how. intros rs a [R1 R2 R3 R4 R5 R6 R7 R8]. cbn [agg_init a_unique a_bps a_novm a_maybe In] in *. split; [|split].
    - constructor; cbn [summary_of m_unique m_bps m_novm m_maybe].
      + intros v. rewrite isort_In, R3. tauto.
      + intros b. rewrite R5. tauto.
      + rewrite R7. split; auto. intros [H|H]; auto. discriminate.
      + rewrite R8. split; auto. intros [H|H]; auto. discriminate.
    - apply isort_increasing. apply R4. constructor.
    - apply R6. constructor.
  Qed.

  Lemma mins_join : forall rs a, loop_rel c rs agg_init a -> combinable c rs ->
    is_join_of (verdict_in rs) (m_mins (summary_of a)) /\
    (m_incomp (summary_of a) = true <-> exists r, In (Some r) rs /\ r_mins r = MNone).
  Proof.
    intros rs a [R1 R2 _ _ _ _ _ _] C. cbn [summary_of m_mins m_incomp agg_init a_mins a_incomp orb] in *.
    assert (G : gfold (c_ignore_incomp c) zero_mins (vlist rs) = fold_left mjoin (vlist rs) zero_mins /\
                gclash (c_ignore_incomp c) zero_mins (vlist rs) = false).
    { destruct C as [C|C].
      - rewrite C. split; [apply gfold_ignore | apply gclash_ignore].
      - destruct (c_ignore_incomp c); [split; [apply gfold_ignore | apply gclash_ignore]|].
        apply gfold_compatible. intros x y [<-|X] [<-|Y] K.
        + exact (clashing_irrefl _ K).
        + exact (zero_clash _ K).
        + apply clashing_sym in K. exact (zero_clash _ K).
        + rewrite vlist_In in X, Y. exact (C _ _ X Y K). }
    destruct G as [G1 G2]. rewrite G1 in R1. rewrite G2, orb_false_r in R2. split.
    - rewrite R1. destruct (fold_mjoin_lub (vlist rs) zero_mins) as [U L]. split; [|split].
      + apply U. left; auto.
      + intros m M. apply U. right. apply vlist_In. auto.
      + intros u Z M. apply L. intros m [<-|I]; auto. apply M, vlist_In. auto.
    - rewrite R2, existsb_exists. split.
      + intros (x & I & E). destruct x as [r|]; [|discriminate]. exists r. split; auto. simpl in E. destruct (r_mins r); auto; discriminate.
      + intros (r & I & E). exists (Some r). split; auto. simpl. rewrite E. auto.
  Qed.
End Process.

(** ** Verdicts of files *)

Lemma zero_le_ok : forall m, wf_part 2 (fst m) -> wf_part 3 (snd m) -> mins_le zero_mins m.
Proof.
  intros [[a|] [b|]]; simpl; intros A B; split; simpl; auto; unfold ver_le; simpl;
    try (destruct A as [->|[A A']]; simpl; lia); try (destruct B as [->|[B B']]; simpl; lia).
Qed.

Lemma syntax_verdict_cases : forall major c se, let m := fst (syntax_verdict major c se) in
  m = (Some (2, 0), None) \/ m = (None, Some (3, 12)) \/ m = zero_mins \/ m = (Some (0, 0), None) \/
  (m = (None, Some (0, 0)) /\ major = 2 /\ c_pessimistic c = true).
Proof.
  intros major c se. unfold syntax_verdict. destruct (contains _ _); [simpl; auto|].
  destruct (_ && _); [simpl; auto|]. cbn [fst]. destruct (c_pessimistic c); [|auto].
  destruct (major =? 2) eqn:E; auto. apply Z.eqb_eq in E. auto 8.
Qed.

Section File.
  Variables (h : hooks) (major : Z) (c : config) (file : string -> fcontent).

  Lemma detect_verdict : forall ps m printed, parser_detect major c ps = DVerdict m printed ->
    exists se, m = fst (syntax_verdict major c se).
  Proof.
    assert (E : forall x m printed,
      match x with PeSyntax se => let (m, out) := syntax_verdict major c se in DVerdict m out | x => DExn x end = DVerdict m printed ->
      exists se, m = fst (syntax_verdict major c se)).
    { intros x m printed. destruct x; try discriminate. destruct (syntax_verdict major c se) eqn:S.
      intros H. injection H as <- _. exists se. rewrite S. reflexivity. }
    intros ps m printed H. unfold parser_detect in H. destruct ps as [x|node toks]; [eauto|].
    destruct (c_parse_comments c); [|discriminate]. destruct toks; [eauto | discriminate].
  Qed.

  (** A verdict is a SyntaxError's, unknown, or that of a visited tree. *)
  Lemma result_cases : forall p how r m, snd (process_individual h major c p (file p) how) = Ok (Some r) ->
    r_mins r = MVers m ->
    (exists source ps printed, file p = FcSource source ps /\ parser_detect major c ps = DVerdict m printed) \/
    (exists x, fails major c file p x /\ m = zero_mins) \/
    (exists source ps node nov e s s', file p = FcSource source ps /\ parser_detect major c ps = DTree node nov /\
       make_visitor h c p source nov = Ok e /\ tour e node = Ok s /\ minimum_versions e s = Ok (m, s')).
  Proof.
    intros p how r m H M. unfold process_individual in H.
    assert (X : forall x, snd (@nil string, match x with
       | PeSyntax _ => Ok None
       | PeInterrupt => Ok (Some (mkRes p MNone "" [] [] false))
       | PeValue | PeType => Ok None
       | PeOther t => Ok (Some (mkRes p (MVers zero_mins) (p +++ ": " +++ t) [] [] false)) end) = Ok (Some r) -> m = zero_mins).
    { intros x K. destruct x; cbn [snd] in K; try discriminate; injection K as <-; simpl in M; congruence. }
    assert (Y : match how with EndAbort => False | _ => True end) by (destruct how; auto; discriminate).
    destruct (file p) as [x|source ps] eqn:F.
    - right; left. exists x. split; [constructor; auto|]. destruct how; try contradiction; eapply X; eauto.
    - destruct (parser_detect major c ps) as [node nov|m' printed|x] eqn:P.
      + right; right. assert (Q : mapr Some (process_tree h c p source node nov how) = Ok (Some r)) by (destruct how; try contradiction; exact H).
        unfold process_tree, bindr, mapr in Q. destruct (make_visitor h c p source nov) as [e|] eqn:V; [|discriminate].
        destruct how; try contradiction.
        * destruct (tour e node) as [s|] eqn:T; [|discriminate].
          destruct (minimum_versions e s) as [[m' s']|x] eqn:N.
          -- injection Q as <-. simpl in M. injection M as ->. exists source, ps, node, nov, e, s, s'. auto.
          -- destruct x; try discriminate. injection Q as <-. discriminate.
        * injection Q as <-. discriminate.
        * discriminate.
      + left. exists source, ps, printed. split; auto. assert (Q : Some (mkRes p (MVers m') "" [] [] false) = Some r) by (destruct how; try contradiction; simpl in H; congruence).
        injection Q as <-. simpl in M. injection M as <-. auto.
      + right; left. exists x. split; [eapply fails_parse; eauto|]. destruct how; try contradiction; eapply X; eauto.
  Qed.

  Lemma make_visitor_cfg : forall p source nov e, make_visitor h c p source nov = Ok e -> e_cfg e = c /\ bps_of e = c_backports c.
  Proof.
    intros p source nov e H. unfold make_visitor, py_assert in H. destruct (path_ok c p); [|discriminate].
    injection H as <-. split; reflexivity.
  Qed.

  Lemma result_join : forall p how r m, snd (process_individual h major c p (file p) how) = Ok (Some r) ->
    r_mins r = MVers m -> is_join_of (file_rule h major c file p) m.
  Proof.
    intros p how r m H M. destruct (result_cases p how r m H M) as [(source & ps & printed & F & P)|[(x & F & ->)|(source & ps & node & nov & e & s & s' & F & P & V & T & N)]].
    - split; [|split].
      + destruct (detect_verdict _ _ _ P) as [se ->].
        destruct (syntax_verdict_cases major c se) as [->|[->|[->|[->|(-> & _)]]]]; apply zero_le_ok; simpl; auto; lia.
      + intros v R. destruct R as [src ps' node nov e s v F' P' _ _ _|src ps' v pr F' P']; rewrite F in F'; injection F' as <- <-; rewrite P in P'.
        * discriminate.
        * injection P' as <- <-. apply mins_le_refl.
      + intros u _ U. apply U. eapply fr_syntax; eauto.
    - split; [apply mins_le_refl|]. split; auto. intros v R. exfalso.
      destruct R as [src ps' node nov e s v F' P' _ _ _|src ps' v pr F' P']; destruct F as [x F|src0 ps0 x F P]; rewrite F in F'; try discriminate;
        injection F' as -> ->; rewrite P in P'; discriminate.
    - apply join_of in N. rewrite (proj2 (make_visitor_cfg _ _ _ _ V)) in N. destruct N as (Z & U & L). split; auto. split.
      + intros v R. destruct R as [src ps' node' nov' e' s0 v F' P' V' T' G|src ps' v pr F' P']; rewrite F in F'; injection F' as <- <-; rewrite P in P'; [|discriminate].
        injection P' as <- <-. rewrite V in V'. injection V' as <-. rewrite T in T'. injection T' as <-. apply U, G.
      + intros u Zu Ru. apply L; auto. intros v G. apply Ru. eapply fr_tree; eauto.
  Qed.

  Lemma result_wf : forall p how r m, snd (process_individual h major c p (file p) how) = Ok (Some r) ->
    r_mins r = MVers m ->
    wf_part 2 (fst m) /\ wf_part 3 (snd m) /\ (major <> 2 -> fst m = None -> snd m = None \/ names_version (snd m)) /\
    (c_ignore_incomp c = false -> m <> (None, None)).
  Proof.
    intros p how r m H M. destruct (result_cases p how r m H M) as [(source & ps & printed & F & P)|[(x & F & ->)|(source & ps & node & nov & e & s & s' & F & P & V & T & N)]].
    - destruct (detect_verdict _ _ _ P) as [se ->].
      destruct (syntax_verdict_cases major c se) as [->|[->|[->|[->|(-> & -> & _)]]]]; simpl;
        repeat split; auto; try discriminate; try lia; intros; try congruence.
      right. eexists. split; [reflexivity|discriminate].
    - simpl. repeat split; auto; discriminate.
    - assert (I := verdict_possible _ _ _ _ : c_ignore_incomp (e_cfg e) = false -> minimum_versions e s = Ok (m, s') -> _).
      rewrite (proj1 (make_visitor_cfg _ _ _ _ V)) in I.
      destruct (verdict_wf _ _ _ _ N) as (A & B & C & D). repeat split; auto.
  Qed.
End File.

Lemma gfold_no_clash : forall ig l m, gclash ig m l = false -> gfold ig m l = fold_left mjoin l m.
Proof.
  induction l as [|v l IH]; simpl; intros m H; auto. apply orb_false_iff in H as [H1 H2]. rewrite H1 in *. auto.
Qed.

Section Process2.
  Variables (h : hooks) (major : Z) (c : config) (file : string -> fcontent) (how : string -> ending).

  Lemma analysed_In : forall paths rs, analysed h major c file how paths rs ->
    (forall r, In r rs -> exists p, In p paths /\ snd (process_individual h major c p (file p) (how p)) = Ok r) /\
    (forall p, In p paths -> exists r, In r rs /\ snd (process_individual h major c p (file p) (how p)) = Ok r).
  Proof.
    induction 1 as [|p r ps rs E _ [IH1 IH2]]; split; intros x [].
    - subst. exists p. simpl; auto.
    - destruct (IH1 x H) as (q & I & K). exists q. simpl; auto.
    - subst. exists r. simpl; auto.
    - destruct (IH2 x H) as (q & I & K). exists q. simpl; auto.
  Qed.

  Lemma end_to_end : forall n paths rs out s, analysed h major c file how paths rs -> toured rs -> 1 <= n ->
    process h major c file how n paths = (out, Ok s) -> m_incomp s = false ->
    is_join_of (fun m => exists p, In p paths /\ file_rule h major c file p m) (m_mins s).
  Proof.
    intros n paths rs out s A T N H I. destruct (process_ok h major c file how n paths rs A T N) as (a & E & R).
    rewrite E in H. injection H as _ <-. destruct R as [R1 R2 _ _ _ _ _ _]. cbn [summary_of m_incomp m_mins agg_init a_incomp a_mins orb] in *.
    rewrite R2 in I. apply orb_false_iff in I as [I1 I2]. rewrite (gfold_no_clash _ _ _ I2) in R1.
    destruct (analysed_In _ _ A) as [A1 A2]. rewrite R1. clear R1 R2 E.
    destruct (fold_mjoin_lub (vlist rs) zero_mins) as [U L]. split; [|split].
    - apply U. left; auto.
    - intros m (p & P & F). destruct (A2 p P) as (r & K & E).
      assert (Q : exists r' v, r = Some r' /\ r_mins r' = MVers v).
      { destruct r as [r|].
        - destruct (r_mins r) eqn:M; [| exfalso; exact (T r K M) | eauto].
          exfalso. apply not_true_iff_false in I1. apply I1. apply existsb_exists. exists (Some r). split; auto. simpl. rewrite M. auto.
        - exfalso. unfold process_individual in E. destruct F as [src ps node nov e s0 m F P' V T' G|src ps m pr F P']; rewrite F, P' in E.
          + destruct (how p); cbn in E; try discriminate; destruct (process_tree _ _ _ _ _ _ _); discriminate.
          + destruct (how p); discriminate. }
      destruct Q as (r' & v & -> & M). apply mins_le_trans with v.
      + apply (result_join h major c file p (how p) r' v E M). exact F.
      + apply U. right. apply vlist_In. exists r'. split; auto.
    - intros u Zu Fu. apply L. intros m [<-|K]; auto. apply vlist_In in K as (r & K & M).
      destruct (A1 _ K) as (p & P & E). apply (result_join h major c file p (how p) r m E M); auto.
      intros v V. apply Fu. eauto.
  Qed.

  (** The verdict of a run is well formed, clash or not. *)
  Lemma wf_join : forall a b, report_ok a -> report_ok b -> report_ok (mjoin a b).
  Proof.
    intros [a2 a3] [b2 b3] (A1 & A2 & A3) (B1 & B2 & B3). unfold mjoin. cbn [fst snd] in *.
    assert (M : forall n x y, 0 < n -> wf_part n x -> wf_part n y -> wf_part n (opt_max x y)).
    { intros n [x|] [y|] N X Y; simpl; auto. apply wf_max; auto. }
    assert (J : forall n x y, 0 < n -> wf_part n x -> wf_part n y ->
      (x = None \/ names_version x) \/ (y = None \/ names_version y) -> opt_max x y = None \/ names_version (opt_max x y)).
    { intros n [x|] [y|] N X Y H; simpl; auto. right. exists (vmax x y). split; auto. apply (wf_max n); auto.
      destruct H as [[H|(z & E & H)]|[H|(z & E & H)]]; try discriminate; injection E as <-; auto. }
    assert (S : forall x y, opt_max x y = None -> x = None \/ y = None) by (intros [x|] [y|]; simpl; intros; auto; discriminate).
    repeat split; cbn [fst snd].
    - apply M; auto; lia.
    - apply M; auto; lia.
    - intros H. apply (J 3); auto; [lia|]. apply S in H as [H|H]; auto.
  Qed.

  Lemma gfold_wf : forall ig l m, report_ok m -> (forall v, In v l -> report_ok v) -> report_ok (gfold ig m l).
  Proof.
    induction l as [|v l IH]; simpl; intros m M V; auto. apply IH; auto. destruct (negb ig && clash m v); auto.
    apply wf_join; auto.
  Qed.

  Lemma vlist_result : forall paths rs m, analysed h major c file how paths rs -> In m (vlist rs) ->
    exists p r, In p paths /\ snd (process_individual h major c p (file p) (how p)) = Ok (Some r) /\ r_mins r = MVers m.
  Proof.
    intros paths rs m A I. apply vlist_In in I as (r & K & M). destruct (proj1 (analysed_In _ _ A) _ K) as (p & P & E). eauto.
  Qed.

  Lemma process_report_ok : forall n paths rs out s, analysed h major c file how paths rs -> toured rs -> 1 <= n -> major <> 2 ->
    process h major c file how n paths = (out, Ok s) ->
    report_ok (m_mins s) /\ ~ In (0, 0) (m_unique s).
  Proof.
    intros n paths rs out s A T N Mj H. destruct (process_ok h major c file how n paths rs A T N) as (a & E & R).
    rewrite E in H. injection H as _ <-. split.
    - cbn [summary_of m_mins]. rewrite (lr_mins _ _ _ _ R). apply gfold_wf.
      + repeat split; simpl; auto; discriminate.
      + intros v I. destruct (vlist_result _ _ _ A I) as (p & r & P & K & M).
        destruct (result_wf h major c file p (how p) r v K M) as (X & Y & Z & _). repeat split; auto.
    - intros I. apply summary_facts in R as [S _]; auto. apply (sum_unique _ _ S) in I as [K _]. unfold ver_lt in K. simpl in K. lia.
  Qed.
End Process2.

(** ** C51 *)

Lemma process_summary : forall h major c file how n paths rs, analysed h major c file how paths rs -> toured rs ->
  1 <= n -> combinable c rs ->
  exists out s, process h major c file how n paths = (out, Ok s) /\
    is_join_of (verdict_in rs) (m_mins s) /\
    (m_incomp s = true <-> exists r, In (Some r) rs /\ r_mins r = MNone) /\
    summarises rs s /\ increasing (m_unique s) /\ NoDup (m_bps s).
Proof.
  intros h major c file how n paths rs A T N C. destruct (process_ok h major c file how n paths rs A T N) as (a & E & R).
  exists (a_out a), (summary_of a). split; auto.
  destruct (mins_join c rs a R C) as [J I]. destruct (summary_facts c rs a R) as (S & U & B). auto.
Qed.

Lemma vlist_verdicts : forall rs, verdicts rs (vlist rs).
Proof.
  induction rs as [|x rs IH]; [constructor|]. change (vlist (x :: rs)) with (vs_of x ++ vlist rs).
  destruct x as [r|]; simpl; [|apply vd_other; auto; discriminate].
  destruct (r_mins r) eqn:E; simpl; [apply vd_other | apply vd_other | apply vd_take]; auto;
    intros r' m K; injection K as <-; congruence.
Qed.

Lemma process_clash : forall h major c file how n paths rs, analysed h major c file how paths rs -> toured rs ->
  1 <= n -> c_ignore_incomp c = false ->
  exists out s, process h major c file how n paths = (out, Ok s) /\
    (exists l, verdicts rs l /\ greedy zero_mins l (m_mins s)) /\
    (m_incomp s = true <-> (exists r, In (Some r) rs /\ r_mins r = MNone) \/
                           (exists a b, verdict_in rs a /\ verdict_in rs b /\ clashing a b)) /\
    summarises rs s /\ increasing (m_unique s) /\ NoDup (m_bps s).
Proof.
  intros h major c file how n paths rs A T N C. destruct (process_ok h major c file how n paths rs A T N) as (a & E & R).
  exists (a_out a), (summary_of a). split; auto. split; [|split].
  - exists (vlist rs). split; [apply vlist_verdicts|]. cbn [summary_of m_mins]. rewrite (lr_mins _ _ _ _ R), C. apply gfold_greedy.
  - cbn [summary_of m_incomp]. rewrite (lr_incomp _ _ _ _ R), C. cbn [agg_init a_incomp a_mins orb].
    rewrite orb_true_iff, existsb_exists, gclash_iff.
    + split; (intros [H|H]; [left|right]).
      * destruct H as (x & I & K). destruct x as [r|]; [|discriminate]. exists r. split; auto. simpl in K. destruct (r_mins r); auto; discriminate.
      * destruct H as (x & y & X & Y & K). exists x, y. rewrite <- !vlist_In. destruct X as [<-|X]; [destruct (zero_clash _ K)|].
        destruct Y as [<-|Y]; [apply clashing_sym in K; destruct (zero_clash _ K)|]. auto.
      * destruct H as (r & I & K). exists (Some r). split; auto. simpl. rewrite K. auto.
      * destruct H as (x & y & X & Y & K). exists x, y. rewrite <- vlist_In in X, Y. simpl. auto.
    + intros m [<-|I]; [discriminate|]. destruct (vlist_result h major c file how _ _ _ A I) as (p & r & P & K & M).
      apply (result_wf h major c file p (how p) r m K M). auto.
  - exact (summary_facts c rs a R).
Qed.

(** Files that are not Python code are as good as absent. *)
Lemma not_python : forall h major c file how n paths p rest, 
  snd (process_individual h major c p (file p) (how p)) = Ok None ->
  process h major c file how n (paths ++ p :: rest) = process h major c file how n (paths ++ rest).
Proof.
  intros h major c file how n paths p rest E. unfold process. rewrite !map_app. cbn [map]. rewrite E.
  set (f := fun p => snd (process_individual h major c p (file p) (how p))).
  assert (L : forall l a, agg_loop c (map f l ++ Ok None :: map f rest) a = agg_loop c (map f l ++ map f rest) a).
  { induction l as [|q l IH]; intros a; simpl; auto. destruct (f q) as [r|]; auto. destruct (agg_step c r a); auto. }
  assert (F : forall l, first_err (map f l ++ Ok None :: map f rest) = first_err (map f l ++ map f rest)).
  { induction l as [|q l IH]; simpl; auto. unfold first_err in *. cbn [fold_right]. rewrite IH. reflexivity. }
  unfold run_results. rewrite L, F. reflexivity.
Qed.

(** ** C52 *)

Lemma process_count : forall h major c file how n n' paths rs, analysed h major c file how paths rs ->
  1 <= n -> 1 <= n' -> process h major c file how n paths = process h major c file how n' paths.
Proof.
  intros h major c file how n n' paths rs A N N'. unfold process. rewrite (analysed_map _ _ _ _ _ _ _ A).
  rewrite !run_results_ok by auto. reflexivity.
Qed.

(** What stdout is apart, an aggregate. *)
Definition forget (a : agg) : agg := mkAgg (a_mins a) (a_incomp a) (a_unique a) (a_bps a) (a_novm a) (a_maybe a) "".

Lemma agg_step_forget : forall c x a a2, forget a = forget a2 ->
  match agg_step c x a, agg_step c x a2 with
  | Ok b, Ok b2 => forget b = forget b2
  | Err e, Err e2 => e = e2
  | _, _ => False
  end.
Proof.
  intros c x a a2 E. destruct a as [m1 i1 u1 b1 n1 y1 o1], a2 as [m2 i2 u2 b2 n2 y2 o2].
  unfold forget in E. cbn in E. injection E as -> -> -> -> -> ->. destruct x as [r|]; simpl; auto.
  destruct (r_mins r) as [| |m]; simpl; auto. destruct (combine2 (c_ignore_incomp c) None m2 m) as [m'|x]; simpl; auto.
  destruct x; simpl; auto.
Qed.

Definition forget_res (x : agg * option exn) : agg * option exn := (forget (fst x), snd x).

Lemma agg_loop_forget : forall c rs a a2, forget a = forget a2 ->
  forget_res (agg_loop c rs a) = forget_res (agg_loop c rs a2).
Proof.
  induction rs as [|[x|x] rs IH]; intros a a2 E; simpl; unfold forget_res in *; simpl; try (f_equal; auto; fail).
  assert (K := agg_step_forget c x a a2 E). destruct (agg_step c x a), (agg_step c x a2); try contradiction; simpl; auto.
  subst. f_equal. auto.
Qed.

Section PoolLoop.
  Variables (c : config) (work : nat -> list string * res (option presult)) (n : nat).
  Let f := fun i => snd (work i).

  Lemma pool_loop_inv : forall evs s done got a r, inv f done s got ->
    NoDup (completions evs) -> (forall i, In i (completions evs) -> ~ In i done) -> (List.length got <= n)%nat ->
    pool_loop c work n evs s (List.length got) a = Some r ->
    forget_res r = forget_res (agg_loop c (map f (List.seq (List.length got) (n - List.length got))) a) /\
    ((forall i, fst (work i) = []) -> r = agg_loop c (map f (List.seq (List.length got) (n - List.length got))) a).
  Proof.
    assert (Done : forall got a r, (List.length got =? n)%nat = true -> Some (a, None) = Some r ->
      forget_res r = forget_res (agg_loop c (map f (List.seq (@List.length (res (option presult)) got) (n - List.length got))) a) /\
      ((forall i, fst (work i) = []) -> r = agg_loop c (map f (List.seq (List.length got) (n - List.length got))) a)).
    { intros got a r E H. apply Nat.eqb_eq in E. injection H as <-. rewrite E, Nat.sub_diag. simpl. auto. }
    induction evs as [|ev evs IH]; intros s done got a r I ND D L H.
    - cbn [pool_loop] in H. destruct (List.length got =? n)%nat eqn:E; [eapply Done; eauto | discriminate].
    - cbn [pool_loop] in H. destruct (List.length got =? n)%nat eqn:E; [eapply Done; eauto|].
      apply Nat.eqb_neq in E. destruct ev as [i|].
      + cbn [completions flat_map app] in ND, D. inversion ND; subst.
        destruct (IH (imap_set i (f i) s) (i :: done) got (add_out (print_lines (fst (work i))) a) r) as [K1 K2]; auto.
        * apply set_inv; auto. apply D. left; auto.
        * intros j J [->|K]; [auto|]. exact (D j (or_intror J) K).
        * split.
          -- rewrite K1. apply agg_loop_forget. reflexivity.
          -- intros W. rewrite (K2 W). unfold add_out. rewrite (W i). cbn. unfold print_lines. simpl. rewrite app_nil_s.
             destruct a; reflexivity.
      + cbn [completions flat_map app] in ND, D. destruct (im_items s) as [|x xs] eqn:Q.
        * eapply IH; eauto.
        * assert (W1 := proj1 (proj1 I)). rewrite Q in W1.
          assert (Len : (List.length got < im_index s)%nat).
          { apply (f_equal (@List.length _)) in W1. rewrite app_length, map_length, seq_length in W1. simpl in W1. lia. }
          assert (X : x = f (List.length got)).
          { apply (f_equal (fun l => nth (List.length got) l (f 0%nat))) in W1.
            rewrite app_nth2, Nat.sub_diag in W1 by lia. simpl in W1. rewrite W1.
            rewrite (map_nth f (List.seq 0 (im_index s)) 0%nat). rewrite seq_nth by lia. reflexivity. }
          replace (n - List.length got)%nat with (S (n - S (List.length got))) by lia. cbn [List.seq map agg_loop]. rewrite <- X.
          destruct x as [x|x].
          2: { injection H as <-. auto. }
          destruct (agg_step c x a) as [a'|x'].
          2: { injection H as <-. auto. }
          assert (Ln : List.length (got ++ [Ok x]) = S (List.length got)) by (rewrite app_length; simpl; lia).
          destruct (IH (mkImap (im_index s) xs (im_unsorted s)) done (got ++ [Ok x]) a' r) as [K1 K2]; auto.
          -- destruct I as [(V1 & V2 & V3 & V4) I2]. split; [split; [|split; [|split]]|]; simpl; auto.
             rewrite <- app_assoc. simpl. exact W1.
          -- rewrite Ln. lia.
          -- rewrite Ln. exact H.
          -- rewrite Ln in *. auto.
  Qed.

  Lemma pool_loop_result : forall evs r, schedule n evs -> pool_loop c work n evs imap_init 0 agg_init = Some r ->
    forget_res r = forget_res (agg_loop c (map f (List.seq 0 n)) agg_init) /\
    ((forall i, fst (work i) = []) -> r = agg_loop c (map f (List.seq 0 n)) agg_init).
  Proof.
    intros evs r [ND B] H. assert (K := pool_loop_inv evs imap_init [] [] agg_init r (init_inv f) ND (fun i _ H => H) (Nat.le_0_l n) H).
    simpl in K. rewrite Nat.sub_0_r in K. exact K.
  Qed.

  (** Every execution in which all workers finish and the loop keeps asking ends. *)
  Lemma pool_loop_ends : forall evs s done got a, inv f done s got -> (List.length got <= n)%nat ->
    NoDup (completions evs) -> (forall i, In i (completions evs) -> ~ In i done) ->
    (forall i, (i < n)%nat -> In i done \/ In i (completions evs)) ->
    forall k, (n - List.length got <= k)%nat ->
    pool_loop c work n (evs ++ repeat Next k) s (List.length got) a <> None.
  Proof.
    induction evs as [|ev evs IH]; intros s done got a I L ND D F k K.
    - cbn [app]. revert s got a I L K. induction k as [|k IHk]; intros s got a I L K; cbn [repeat pool_loop].
      + rewrite (proj2 (Nat.eqb_eq _ _)) by lia. discriminate.
      + destruct (List.length got =? n)%nat eqn:E; [discriminate|]. apply Nat.eqb_neq in E.
        destruct I as [(V1 & V2 & V3 & V4) I2].
        assert (Idx : (n <= im_index s)%nat).
        { destruct (le_lt_dec n (im_index s)); auto. exfalso. destruct (F (im_index s) l) as [G|G]; [|destruct G].
          apply V4 in G as [G|G]; [lia | contradiction]. }
        destruct (im_items s) as [|x xs] eqn:Q.
        * rewrite app_nil_r in V1. apply (f_equal (@List.length _)) in V1. rewrite map_length, seq_length in V1. lia.
        * destruct x as [x|x]; [|discriminate]. destruct (agg_step c x a) as [a'|]; [|discriminate].
          replace (S (List.length got)) with (List.length (got ++ [Ok x])) by (rewrite app_length; simpl; lia).
          apply IHk.
          -- split; [split; [|split; [|split]]|]; simpl; auto. rewrite <- app_assoc. exact V1.
          -- rewrite app_length. simpl. lia.
          -- rewrite app_length. simpl. lia.
    - cbn [app pool_loop]. destruct (List.length got =? n)%nat eqn:E; [discriminate|]. apply Nat.eqb_neq in E.
      destruct ev as [i|].
      + cbn [completions flat_map app] in ND, D, F. inversion ND; subst.
        refine (IH (imap_set i (f i) s) (i :: done) got _ _ _ _ _ _ k _); auto.
        * apply set_inv; auto. apply D. left; auto.
        * intros j J [->|Q]; [auto|]. exact (D j (or_intror J) Q).
        * intros j J. destruct (F j J) as [G|[->|G]]; simpl; auto.
      + cbn [completions flat_map app] in ND, D, F. destruct (im_items s) as [|x xs] eqn:Q.
        * eapply IH; eauto.
        * destruct x as [x|x]; [|discriminate]. destruct (agg_step c x a) as [a'|]; [|discriminate].
          destruct I as [(V1 & V2 & V3 & V4) I2].
          replace (S (List.length got)) with (List.length (got ++ [Ok x])) by (rewrite app_length; simpl; lia).
          eapply IH with (done := done); auto.
          -- split; [split; [|split; [|split]]|]; simpl; auto. rewrite <- app_assoc. simpl. rewrite Q in V1. exact V1.
          -- rewrite app_length. simpl. lia.
          -- rewrite app_length. simpl. lia.
  Qed.
End PoolLoop.

(** ** C53 *)

Lemma analysed_subset : forall h major c file how paths rs, analysed h major c file how paths rs ->
  forall paths', (forall p, In p paths' -> In p paths) ->
  exists rs', analysed h major c file how paths' rs' /\ (forall r, In r rs' -> In r rs).
Proof.
  intros h major c file how paths rs A. destruct (analysed_In h major c file how paths rs A) as [_ B].
  induction paths' as [|p paths' IH]; intros S.
  - exists []. split; [constructor | intros r []].
  - destruct IH as (rs' & A' & S'). { intros q Q. apply S. right; auto. }
    destruct (B p (S p (or_introl eq_refl))) as (r & R & E). exists (r :: rs'). split; [constructor; auto|].
    intros x [<-|X]; auto.
Qed.

Lemma analysed_same : forall h major c file how paths rs paths' rs', analysed h major c file how paths rs ->
  analysed h major c file how paths' rs' -> (forall p, In p paths <-> In p paths') -> forall r, In r rs <-> In r rs'.
Proof.
  intros h major c file how paths rs paths' rs' A A' S.
  destruct (analysed_In h major c file how paths rs A) as [B1 B2]. destruct (analysed_In h major c file how paths' rs' A') as [B1' B2'].
  intros r. split; intros R.
  - destruct (B1 r R) as (p & P & E). apply S in P. destruct (B2' p P) as (r' & R' & E'). congruence.
  - destruct (B1' r R) as (p & P & E). apply S in P. destruct (B2 p P) as (r' & R' & E'). congruence.
Qed.

Lemma join_of_unique : forall P r r', is_join_of P r -> is_join_of P r' -> r = r'.
Proof. intros P r r' (A & B & C) (A' & B' & C'). apply mins_le_antisym; auto. Qed.

Lemma join_of_ext : forall P Q r, (forall m, P m <-> Q m) -> is_join_of P r -> is_join_of Q r.
Proof.
  intros P Q r E (A & B & C). split; [auto|split].
  - intros m M. apply B, E, M.
  - intros u Z U. apply C; auto. intros m M. apply U, E, M.
Qed.

Lemma increasing_head : forall l v w, increasing (v :: l) -> In w l -> ver_lt v w.
Proof.
  induction l as [|x l IH]; intros v w I W; [destruct W|]. inversion I; subst. destruct W as [->|W]; auto.
  assert (K := IH _ _ H3 W). unfold ver_lt in *. lia.
Qed.
Lemma increasing_tail : forall v l, increasing (v :: l) -> increasing l.
Proof. intros v l I. inversion I; auto. constructor. Qed.

Lemma increasing_eq : forall l l', increasing l -> increasing l' -> (forall v, In v l <-> In v l') -> l = l'.
Proof.
  induction l as [|v l IH]; intros [|w l'] I I' E; auto.
  - exfalso. apply (E w). left; auto.
  - exfalso. apply (E v). left; auto.
  - assert (v = w).
    { destruct (proj1 (E v) (or_introl eq_refl)) as [->|A]; auto. destruct (proj2 (E w) (or_introl eq_refl)) as [B|B]; auto.
      assert (K1 := increasing_head _ _ _ I B). assert (K2 := increasing_head _ _ _ I' A). unfold ver_lt in *. lia. }
    subst w. f_equal. apply IH; [eapply increasing_tail; eauto | eapply increasing_tail; eauto |].
    intros x. split; intros X.
    + destruct (proj1 (E x) (or_intror X)) as [->|]; auto. assert (K := increasing_head _ _ _ I X). unfold ver_lt in K. lia.
    + destruct (proj2 (E x) (or_intror X)) as [->|]; auto. assert (K := increasing_head _ _ _ I' X). unfold ver_lt in K. lia.
Qed.

Lemma summarises_same : forall rs rs' s s', (forall r, In r rs <-> In r rs') ->
  summarises rs s -> summarises rs' s' -> increasing (m_unique s) -> increasing (m_unique s') -> m_mins s = m_mins s' ->
  same_result s s'.
Proof.
  intros rs rs' s s' E [U B N M] [U' B' N' M'] I I' Q.
  assert (C : forall r m, counted rs r m <-> counted rs' r m) by (intros r m; unfold counted; rewrite (E (Some r)); tauto).
  assert (V : forall m, verdict_in rs m <-> verdict_in rs' m).
  { intros m. unfold verdict_in. split; intros (r & R); exists r; apply C; auto. }
  constructor; auto.
  - apply increasing_eq; auto. intros v. rewrite U, U'.
    split; intros (A & m & X & Y); (split; [auto | exists m; split; [apply V|]; auto]).
  - intros b. rewrite B, B'. split; intros (r & m & X & Y); exists r, m; (split; [apply C|]; auto).
  - apply eq_true_iff_eq. rewrite N, N'. split; intros (r & m & X & Y); exists r, m; (split; [apply C|]; auto).
  - apply eq_true_iff_eq. rewrite M, M'. split; intros (r & m & X & Y); exists r, m; (split; [apply C|]; auto).
Qed.

Lemma process_order : forall h major c file how n n' paths paths' rs, analysed h major c file how paths rs -> toured rs ->
  1 <= n -> 1 <= n' -> combinable c rs -> (forall p, In p paths <-> In p paths') ->
  exists out s out' s', process h major c file how n paths = (out, Ok s) /\ process h major c file how n' paths' = (out', Ok s') /\
    same_result s s' /\ m_incomp s = m_incomp s'.
Proof.
  intros h major c file how n n' paths paths' rs A T N N' C S.
  destruct (analysed_subset _ _ _ _ _ _ _ A paths' (fun p P => proj2 (S p) P)) as (rs' & A' & _).
  assert (E := analysed_same _ _ _ _ _ _ _ _ _ A A' S).
  assert (T' : toured rs') by (intros r R; apply T, E, R).
  assert (C' : combinable c rs').
  { destruct C as [C|C]; [left; auto|right]. intros a b [ra [Ia Ma]] [rb [Ib Mb]].
    apply C; [exists ra | exists rb]; (split; [apply E|]; auto). }
  destruct (process_summary _ _ _ _ _ n _ _ A T N C) as (out & s & P & J & I & U & V & _).
  destruct (process_summary _ _ _ _ _ n' _ _ A' T' N' C') as (out' & s' & P' & J' & I' & U' & V' & _).
  exists out, s, out', s'. repeat (split; [auto; fail|]). split.
  - eapply summarises_same; eauto. eapply join_of_unique; [exact J|]. eapply join_of_ext; [|exact J'].
    intros m. unfold verdict_in, counted. split; intros (r & R & M); exists r; (split; [apply E|]; auto).
  - apply eq_true_iff_eq. rewrite I, I'. split; intros (r & R & M); exists r; (split; [apply E|]; auto).
Qed.

(** Whether any file is left out is seen in every order. *)
Lemma process_order_incomp : forall h major c file how n n' paths paths' rs, analysed h major c file how paths rs -> toured rs ->
  1 <= n -> 1 <= n' -> c_ignore_incomp c = false -> (forall p, In p paths <-> In p paths') ->
  exists out s out' s', process h major c file how n paths = (out, Ok s) /\ process h major c file how n' paths' = (out', Ok s') /\
    m_incomp s = m_incomp s' /\ m_unique s = m_unique s' /\ m_novm s = m_novm s' /\ m_maybe s = m_maybe s' /\
    (forall b, In b (m_bps s) <-> In b (m_bps s')).
Proof.
  intros h major c file how n n' paths paths' rs A T N N' C S.
  destruct (analysed_subset _ _ _ _ _ _ _ A paths' (fun p P => proj2 (S p) P)) as (rs' & A' & _).
  assert (E := analysed_same _ _ _ _ _ _ _ _ _ A A' S).
  assert (T' : toured rs') by (intros r R; apply T, E, R).
  destruct (process_clash _ _ _ _ _ n _ _ A T N C) as (out & s & P & _ & I & U & V & _).
  destruct (process_clash _ _ _ _ _ n' _ _ A' T' N' C) as (out' & s' & P' & _ & I' & U' & V' & _).
  exists out, s, out', s'. split; [auto|]. split; [auto|]. split.
  - apply eq_true_iff_eq. rewrite I, I'. unfold verdict_in, counted.
    split; (intros [(r & R & M)|(a & b & (r & R & M) & (q & Q & M') & K)]; [left; exists r; split; [apply E|]; auto|
      right; exists a, b; split; [exists r; split; [apply E|]; auto | split; [exists q; split; [apply E|]; auto | auto]]]).
  - set (t := mkSum (m_mins s) (m_incomp s') (m_unique s') (m_bps s') (m_novm s') (m_maybe s')).
    assert (Ut : summarises rs' t) by (destruct U'; constructor; auto).
    destruct (summarises_same rs rs' s t E U Ut V V' eq_refl) as [_ K2 K3 K4 K5]. cbn in *. auto.
Qed.

(** ** C58 *)

(** The same but for stdout, and, unless [P], whether files were left out. *)
Definition same_agg (P : Prop) (a b : agg) : Prop :=
  a_mins a = a_mins b /\ a_unique a = a_unique b /\ a_bps a = a_bps b /\ a_novm a = a_novm b /\ a_maybe a = a_maybe b /\
  (P -> a_incomp a = a_incomp b).

Lemma same_agg_refl : forall P a, same_agg P a a.
Proof. intros; repeat split. Qed.

Lemma agg_step_same : forall P c x a b, same_agg P a b ->
  match agg_step c x a, agg_step c x b with
  | Ok a', Ok b' => same_agg P a' b'
  | Err e, Err e' => e = e'
  | _, _ => False
  end.
Proof.
  intros P c x [m1 i1 u1 b1 n1 y1 o1] [m2 i2 u2 b2 n2 y2 o2] (E1 & E2 & E3 & E4 & E5 & E6). cbn in *. subst.
  destruct x as [r|]; simpl; [|repeat split; auto].
  destruct (r_mins r) as [| |m]; simpl; auto; [repeat split; auto|].
  destruct (combine2 (c_ignore_incomp c) None m2 m) as [m'|x]; simpl; [repeat split; auto|].
  destruct x; simpl; auto. repeat split; auto.
Qed.

Lemma agg_loop_same : forall P c rs a b, same_agg P a b ->
  same_agg P (fst (agg_loop c rs a)) (fst (agg_loop c rs b)) /\ snd (agg_loop c rs a) = snd (agg_loop c rs b).
Proof.
  induction rs as [|[x|x] rs IH]; intros a b E; simpl; auto.
  assert (K := agg_step_same P c x a b E). destruct (agg_step c x a), (agg_step c x b); try contradiction; simpl; auto.
  subst; auto.
Qed.

Section Failing.
  Variables (h : hooks) (major : Z) (c : config) (file : string -> fcontent) (how : string -> ending).
  Let f := fun p => snd (process_individual h major c p (file p) (how p)).

  Lemma step_wf : forall p r a a', f p = Ok r -> agg_step c r a = Ok a' ->
    mins_le zero_mins (a_mins a) -> mins_le zero_mins (a_mins a').
  Proof.
    intros p r a a' F E W. destruct r as [r|]; [|injection E as <-; auto].
    unfold agg_step in E. destruct (r_mins r) as [| |m] eqn:M; [injection E as <-; auto | discriminate |]. cbv zeta in E.
    destruct (combine2 (c_ignore_incomp c) None (a_mins a) m) as [m'|x] eqn:C.
    - injection E as <-. cbn [a_mins]. apply combine2_any in C as [-> _].
      eapply mins_le_trans; [exact W|]. apply mjoin_ub.
    - destruct x; try discriminate. injection E as <-. auto.
  Qed.

  Lemma step_failing : forall p x a, fails major c file p x -> how p <> EndAbort -> mins_le zero_mins (a_mins a) ->
    exists r a', f p = Ok r /\ agg_step c r a = Ok a' /\ same_agg (x <> PeInterrupt) a' a.
  Proof.
    intros p x a F H W.
    assert (E : f p = match x with
      | PeInterrupt => Ok (Some (mkRes p MNone "" [] [] false))
      | PeValue | PeType => Ok None
      | PeOther t => Ok (Some (mkRes p (MVers zero_mins) (p +++ ": " +++ t) [] [] false))
      | PeSyntax _ => Ok None
      end).
    { unfold f, process_individual. inversion F as [y E|source ps y E D]; subst; rewrite E; [|rewrite D]; destruct (how p); try congruence; reflexivity. }
    rewrite E. destruct x; eexists; eexists; (split; [reflexivity|]).
    - split; [reflexivity|]. apply same_agg_refl.
    - split; [reflexivity|]. apply same_agg_refl.
    - split; [reflexivity|]. apply same_agg_refl.
    - split; [reflexivity|]. repeat split; auto. cbn. congruence.
    - unfold agg_step. cbn [r_mins r_bps r_novermin r_maybe r_path]. cbv zeta.
      unfold combine2. replace (clash (a_mins a) zero_mins) with false.
      2: { symmetry. apply not_true_is_false. rewrite clash_iff. intros K. apply clashing_sym in K. exact (zero_clash _ K). }
      rewrite andb_false_r. split; [reflexivity|].
      change (opt_max (fst (a_mins a)) (fst zero_mins), opt_max (snd (a_mins a)) (snd zero_mins)) with (mjoin (a_mins a) zero_mins).
      replace (mjoin (a_mins a) zero_mins) with (a_mins a).
      + repeat split; cbn; auto; try (rewrite orb_false_r; auto).
      + apply mins_le_antisym; [apply mjoin_ub|]. apply mjoin_least; auto. apply mins_le_refl.
  Qed.

  Lemma loop_failing : forall p x, fails major c file p x -> how p <> EndAbort ->
    forall r l a b, same_agg (x <> PeInterrupt) a b -> mins_le zero_mins (a_mins b) ->
    same_agg (x <> PeInterrupt) (fst (agg_loop c (map f (l ++ p :: r)) a)) (fst (agg_loop c (map f (l ++ r)) b)) /\
    snd (agg_loop c (map f (l ++ p :: r)) a) = snd (agg_loop c (map f (l ++ r)) b).
  Proof.
    intros p x F H r. induction l as [|q l IH]; intros a b E W.
    - cbn [app map agg_loop].
      destruct (step_failing p x a F H) as (v & a' & V & S & K); [rewrite (proj1 E); auto|].
      rewrite V, S. apply agg_loop_same. destruct E as (E1 & E2 & E3 & E4 & E5 & E6), K as (K1 & K2 & K3 & K4 & K5 & K6).
      repeat split; try congruence. intros Q. rewrite K6, E6; auto.
    - cbn [app map agg_loop]. destruct (f q) as [v|e] eqn:V; [|auto].
      assert (K := agg_step_same _ c v a b E). destruct (agg_step c v a) as [a'|], (agg_step c v b) as [b'|] eqn:B; try contradiction.
      + apply IH; auto. eapply step_wf; eauto.
      + subst. auto.
  Qed.

  Lemma process_failing : forall n l p r x, fails major c file p x -> how p <> EndAbort ->
    match snd (process h major c file how n (l ++ p :: r)), snd (process h major c file how n (l ++ r)) with
    | Ok s, Ok s' => same_result s s' /\ (x <> PeInterrupt -> m_incomp s = m_incomp s')
    | Err e, Err e' => e = e'
    | _, _ => False
    end.
  Proof.
    intros n l p r x F H. unfold process. fold f.
    assert (K : same_agg (x <> PeInterrupt) (fst (run_results c n (map f (l ++ p :: r)))) (fst (run_results c n (map f (l ++ r)))) /\
                snd (run_results c n (map f (l ++ p :: r))) = snd (run_results c n (map f (l ++ r)))).
    { destruct (loop_failing p x F H r l agg_init agg_init (same_agg_refl _ _) (mins_le_refl _)) as [K1 K2].
      unfold run_results. destruct (n =? 1).
      - assert (Fe : first_err (map f (l ++ p :: r)) = first_err (map f (l ++ r))).
        { destruct (step_failing p x agg_init F H (mins_le_refl _)) as (v & a' & V & _).
          clear - V. induction l as [|q l IH]; unfold first_err in *; cbn [app map fold_right]; [rewrite V; auto|]. rewrite IH. auto. }
        rewrite Fe in *. destruct (first_err (map f (l ++ r))) eqn:Q; [split; [apply same_agg_refl|auto]|auto].
      - destruct (n <? 1); [split; [apply same_agg_refl|auto]|auto]. }
    destruct (run_results c n (map f (l ++ p :: r))) as [a e], (run_results c n (map f (l ++ r))) as [b e'].
    cbn [fst snd] in K. destruct K as [(E1 & E2 & E3 & E4 & E5 & E6) <-].
    assert (S : same_result (summary_of a) (summary_of b) /\ (x <> PeInterrupt -> m_incomp (summary_of a) = m_incomp (summary_of b))).
    { split; auto. constructor; cbn [summary_of m_mins m_unique m_bps m_novm m_maybe]; try congruence. intros y. rewrite E3. tauto. }
    destruct e as [e|]; [|exact S]. destruct e; cbn [snd]; auto.
  Qed.
End Failing.
