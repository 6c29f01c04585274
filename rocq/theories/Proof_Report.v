(** Lemmas for C54-C56: from the summary to the report. *)
From Verif Require Import PyBase PyLemmas Utility RulesData Rules Config Formats Paths AstKinds Ast State Visitor
  MinVersions Parser Detection Arguments Pool Processor Main Spec_Base Spec_Utility Proof_Utility Spec_Rules Proof_Rules
  Spec_MinVersions Proof_MinVersions Spec_Main Proof_Main.

(** ** Text of versions *)

Lemma vs_vers_ok : forall l sep, l <> [] -> (List.length l < 3)%nat \/ ~ In (0, 0) l -> exists t, vs_vers l sep = Ok t.
Proof.
  intros l sep N H. unfold vs_vers, version_strings, version_strings_gen. cbv zeta. rewrite map_length.
  destruct l as [|v l]; [congruence|]. cbn [List.length Nat.eqb]. 
  match goal with |- context [existsb ?f ?l && ?b] => destruct (existsb f l && b) eqn:E end; [|eexists; reflexivity].
  apply andb_true_iff in E as [E1 E2]. exfalso. destruct H as [H|H].
  - apply negb_true_iff, Nat.ltb_ge in E2. unfold ver in *; simpl in H; lia.
  - apply existsb_exists in E1 as (x & X & K). apply in_map_iff in X as (w & <- & W). simpl in K. apply veqb_eq in K. subst. contradiction.
Qed.

Lemma vs_strs_ok : forall l, l <> [] -> exists t, vs_strs l = Ok t.
Proof.
  intros l N. unfold vs_strs, version_strings, version_strings_gen. cbv zeta. rewrite map_length.
  destruct l as [|v l]; [congruence|]. cbn [List.length Nat.eqb].
  replace (existsb is_unknown (map VStrI (v :: l))) with false; [simpl; eauto|].
  symmetry. apply not_true_is_false. intros E. apply existsb_exists in E as (x & X & K). apply in_map_iff in X as (w & <- & W). discriminate.
Qed.

Definition one_str (n : Z) (v : ver) : string := if veqb v (0, 0) then "~" +++ z_str n else ver_str v.

Lemma one_str_writes : forall n v, writes n (Some v) (one_str n v).
Proof.
  intros n [x y]. unfold one_str. destruct (veqb (x, y) (0, 0)) eqn:E.
  - apply veqb_eq in E. injection E as -> ->. constructor.
  - apply writes_ver. intros K. rewrite K in E. discriminate.
Qed.
Lemma writes_one : forall n v t, writes n (Some v) t -> t = one_str n v.
Proof.
  intros n v t W. inversion W as [|(* *)|x y N]; subst; unfold one_str; auto.
  destruct (veqb (x, y) (0, 0)) eqn:E; auto. apply veqb_eq in E. contradiction.
Qed.

Definition sep_of (sep : string) : string := if String.eqb sep "" then ", " else sep.

Lemma vs_vers_1 : forall v sep, vs_vers [v] sep = Ok (one_str 2 v).
Proof.
  intros v sep. unfold vs_vers, version_strings, version_strings_gen. cbv zeta. cbn [map List.length Nat.eqb existsb is_unknown orb].
  change (negb (1 <? 3)%nat) with false. rewrite andb_false_r. reflexivity.
Qed.
Lemma vs_vers_2 : forall v w sep, vs_vers [v; w] sep = Ok (one_str 2 v +++ sep_of sep +++ one_str 3 w).
Proof.
  intros v w sep. unfold vs_vers, version_strings, version_strings_gen. cbv zeta. cbn [map List.length Nat.eqb existsb is_unknown orb].
  change (negb (2 <? 3)%nat) with false. rewrite andb_false_r. reflexivity.
Qed.


Definition avoids (ch : ascii) (s : string) : bool := sall (fun c => negb (Ascii.eqb ch c)) s.

Lemma ver_str_avoids : forall ch v, is_digit ch = false -> ch <> "-"%char -> ch <> "."%char -> avoids ch (ver_str v) = true.
Proof.
  intros ch v D M P. unfold avoids, ver_str. rewrite !sall_app.
  assert (Z : forall z, sall (fun c => negb (Ascii.eqb ch c)) (z_str z) = true).
  { intros z. apply (sall_impl digit_minus); [|apply z_str_chars]. intros c H. apply negb_true_iff, not_true_is_false.
    intros E. apply Ascii.eqb_eq in E. subst c. unfold digit_minus in H. rewrite D in H. cbn [orb] in H. apply Ascii.eqb_eq in H. auto. }
  rewrite !Z. rewrite sall_cons, andb_true_r, andb_true_r. apply negb_true_iff, not_true_is_false. intros E. apply Ascii.eqb_eq in E. auto.
Qed.

Lemma split_none : forall ch s, avoids ch s = true -> split_char ch s = [s].
Proof.
  intros ch. unfold split_char, avoids. induction s as [|c s IH]; intros H; auto. rewrite sall_cons in H. cbn [split_on].
  apply andb_true_iff in H as [H1 H2]. apply negb_true_iff in H1. rewrite H1, (IH H2). auto.
Qed.
Lemma split_sep : forall ch a b, avoids ch a = true -> split_char ch (a +++ String ch b) = a :: split_char ch b.
Proof.
  intros ch a b. unfold split_char, avoids. induction a as [|c a IH]; intros H.
  - simpl. rewrite Ascii.eqb_refl. auto.
  - rewrite sall_cons in H. apply andb_true_iff in H as [H1 H2]. apply negb_true_iff in H1.
    change (String c a +++ String ch b) with (String c (a +++ String ch b)). cbn [split_on]. rewrite H1, (IH H2). auto.
Qed.
Lemma avoids_contains : forall s, avoids "~" s = true -> contains "~" s = false.
Proof.
  unfold avoids. induction s as [|c s IH]; intros H; [reflexivity|]. rewrite sall_cons in H. apply andb_true_iff in H as [H1 H2].
  cbn [contains]. rewrite (IH H2), orb_false_r. cbn [startswith]. apply negb_true_iff in H1. rewrite H1. reflexivity.
Qed.

Definition unknown_of (v w : option ver) : list string :=
  (match v with Some v => if veqb v (0, 0) then ["2"] else [] | None => [] end) ++
  (match w with Some w => if veqb w (0, 0) then ["3"] else [] | None => [] end).

Lemma unknown_1 : forall v, unknown_majors [v] = Ok (if veqb v (0, 0) then ["2"] else []).
Proof.
  intros v. unfold unknown_majors. rewrite vs_vers_1. cbn [bindr]. unfold one_str. destruct (veqb v (0, 0)); [reflexivity|].
  rewrite split_none by (apply ver_str_avoids; [reflexivity|discriminate|discriminate]).
  cbn [filter]. rewrite avoids_contains by (apply ver_str_avoids; [reflexivity|discriminate|discriminate]). reflexivity.
Qed.

Lemma unknown_2 : forall v w, unknown_majors [v; w] = Ok (unknown_of (Some v) (Some w)).
Proof.
  intros v w. unfold unknown_majors. rewrite vs_vers_2. cbn [bindr].
  change (sep_of ",") with ",".
  assert (A : forall n v, n = 2 \/ n = 3 -> avoids "," (one_str n v) = true).
  { intros n u N. unfold one_str. destruct (veqb u (0, 0)); [destruct N as [->| ->]; reflexivity|]. apply ver_str_avoids; [reflexivity|discriminate|discriminate]. }
  change (one_str 2 v +++ "," +++ one_str 3 w) with (one_str 2 v +++ String "," (one_str 3 w)).
  rewrite split_sep, split_none by (apply A; auto). cbn [filter].
  assert (C : forall n v, contains "~" (one_str n v) = veqb v (0, 0)).
  { intros n u. unfold one_str. destruct (veqb u (0, 0)); [reflexivity|]. apply avoids_contains, ver_str_avoids; [reflexivity|discriminate|discriminate]. }
  rewrite !C. unfold unknown_of, one_str.
  destruct (veqb v (0, 0)), (veqb w (0, 0)); reflexivity.
Qed.

(** ** The exit code *)

Lemma reqs_short : forall m, (List.length (reqs_of m) <= 2)%nat.
Proof. intros [[a|] [b|]]; unfold reqs_of; simpl; lia. Qed.
Lemma reqs_In : forall m v, In v (reqs_of m) <-> required m v.
Proof.
  intros [[a|] [b|]] v; unfold reqs_of, required; simpl; intuition congruence.
Qed.

(** Requirements of no target's major do not count. *)
Lemma last_by_major_filter : forall l m, m <> 0 -> 
  last_by_major fst (filter (fun v => negb (is_zero_ver v)) l) m = last_by_major (@fst Z Z) l m.
Proof.
  induction l as [|v l IH]; intros m M; auto. cbn [filter]. destruct (is_zero_ver v) eqn:E; cbn [negb last_by_major].
  - rewrite IH by auto. unfold is_zero_ver in E. apply veqb_eq in E. subst v.
    destruct (last_by_major fst l m); auto. cbn [fst]. replace (0 =? m) with false by (symmetry; apply Z.eqb_neq; lia). reflexivity.
  - rewrite IH by auto. reflexivity.
Qed.

Lemma forallb_ext_in : forall {A} (g h : A -> bool) l, (forall x, In x l -> g x = h x) -> forallb g l = forallb h l.
Proof.
  induction l as [|x l IH]; intros E; simpl; auto. rewrite (E x) by (left; auto). rewrite IH; auto. intros y Y. apply E. right; auto.
Qed.

Lemma compare_ext : forall r1 r2 targets,
  (forall t, In t targets -> last_by_major fst r1 (fst (snd t)) = last_by_major fst r2 (fst (snd t))) ->
  compare_requirements r1 targets = compare_requirements r2 targets.
Proof.
  intros r1 r2 targets E. unfold compare_requirements. cbv zeta.
  match goal with |- context [map ?f targets] => set (majors := map f targets) end.
  assert (M : forall m, In m majors -> last_by_major fst r1 m = last_by_major fst r2 m).
  { intros m I. apply in_map_iff in I as (t & <- & T). apply (E t T). }
  match goal with |- context [filter ?f majors] => match goal with |- context [filter ?g majors] => 
    lazymatch f with g => fail | _ => rewrite (filter_ext_in f g majors) end end end.
  2: { intros m I. rewrite (M m I). reflexivity. }
  match goal with |- match ?l with [] => _ | _ => _ end = _ => destruct l as [|z0 zs] eqn:F; [reflexivity|]; rewrite <- F end.
  match goal with |- (if ?b then _ else _) = _ => destruct b; [reflexivity|] end.
  apply forallb_ext_in. intros m I. apply filter_In in I as [I _]. rewrite (M m I). reflexivity.
Qed.

Lemma compare_filter : forall reqs targets, (forall t, In t targets -> fst (snd t) <> 0) ->
  compare_requirements (filter (fun v => negb (is_zero_ver v)) reqs) targets = compare_requirements reqs targets.
Proof. intros reqs targets N. apply compare_ext. intros t T. apply last_by_major_filter; auto. Qed.

Lemma compare_met : forall m targets, wf_part 2 (fst m) -> wf_part 3 (snd m) ->
  one_per_major (fun t : target => fst (snd t)) targets -> (forall t, In t targets -> in_range (snd t)) ->
  (compare_requirements (reqs_of m) targets = true <-> targets <> [] /\ targets_met targets m).
Proof.
  intros m targets W2 W3 O R.
  assert (NZ : forall t, In t targets -> fst (snd t) <> 0).
  { intros t T. destruct (R t T) as [A B]. unfold ver_le, ver_lt in *. simpl in *. lia. }
  rewrite <- compare_filter by auto. rewrite compare_requirements_iff; auto.
  - assert (Q : forall t v, In t targets -> (In v (filter (fun v => negb (is_zero_ver v)) (reqs_of m)) /\ target_ok t v <-> required m v /\ target_ok t v)).
    { intros t v T. rewrite filter_In, reqs_In. split; [tauto|]. intros [A B]. split; auto. split; auto.
      apply negb_true_iff, not_true_is_false. intros Z. unfold is_zero_ver in Z. apply veqb_eq in Z. subst v.
      destruct B as [B _]. simpl in B. apply (NZ t T). auto. }
    split; intros [A B]; (split; [auto|]); intros t T; destruct (B t T) as (v & V); exists v; apply (Q t v T); exact V.
  - unfold one_per_major. destruct m as [[a|] [b|]]; unfold reqs_of in *; cbn [somes fst snd filter map] in *; 
      repeat match goal with |- context [is_zero_ver ?x] => destruct (is_zero_ver x) eqn:?E end; cbn [negb map]; repeat constructor; auto.
    intros [K|[]]. destruct W2 as [->|[W2 _]]; [discriminate|]. destruct W3 as [->|[W3 _]]; [discriminate|]. lia.
Qed.

Lemma all_inconclusive_iff : forall c m, all_inconclusive c (reqs_of m) = true <->
  c_only_show_violations c = true /\ nothing_detected m.
Proof.
  intros c m. unfold all_inconclusive, nothing_detected. rewrite !andb_true_iff, forallb_forall, Nat.ltb_lt.
  split.
  - intros [[A B] C]. split; auto. split.
    + destruct (reqs_of m) as [|v l] eqn:E; [simpl in B; lia|]. exists v. rewrite <- reqs_In, E. left; auto.
    + intros v V. apply reqs_In in V. apply C in V. apply veqb_eq in V. auto.
  - intros [A [[v V] C]]. split; [split; auto|].
    + apply reqs_In in V. destruct (reqs_of m); [destruct V | simpl; lia].
    + intros x X. apply reqs_In in X. rewrite (C x X). reflexivity.
Qed.

Lemma targets_failed_iff : forall c m, wf_part 2 (fst m) -> wf_part 3 (snd m) ->
  one_per_major (fun t : target => fst (snd t)) (c_targets c) -> (forall t, In t (c_targets c) -> in_range (snd t)) ->
  (targets_failed c (reqs_of m) = false <-> success c m).
Proof.
  intros c m W2 W3 O R. unfold targets_failed, success. rewrite <- all_inconclusive_iff.
  assert (C := compare_met m (c_targets c) W2 W3 O R). destruct (c_targets c) as [|t ts] eqn:T.
  - cbn [List.length Nat.ltb Nat.leb andb]. tauto.
  - change (0 <? List.length (t :: ts))%nat with true. cbn [andb].
    destruct (all_inconclusive c (reqs_of m)); cbn [negb andb]; [tauto|].
    destruct (compare_requirements (reqs_of m) (t :: ts)); cbn [negb].
    + destruct C as [C _]. destruct (C eq_refl) as [_ C']. tauto.
    + split; [discriminate|]. intros [K|[K|K]]; try discriminate. destruct C as [_ C]. rewrite C; [auto|]. split; [discriminate|auto].
Qed.

(** The lines about the verdict, shape by shape. *)
Definition min_lines (c : config) (m : mins) : list string :=
  match m with
  | (Some a, Some b) => nprint c ("Minimum required versions: " +++ one_str 2 a +++ ", " +++ one_str 3 b)
  | (Some a, None) | (None, Some a) => nprint c ("Minimum required versions: " +++ one_str 2 a)
  | (None, None) => []
  end.
Definition note_lines (c : config) (m : mins) : list string :=
  if existsb is_zero_ver (reqs_of m) then
    nprint c ("Note: Not enough evidence to conclude it won't work with Python " +++
              join " or " (match m with
                           | (Some a, Some b) => unknown_of (Some a) (Some b)
                           | (Some a, None) | (None, Some a) => if veqb a (0, 0) then ["2"] else []
                           | _ => []
                           end) +++ ".")
  else [].
Definition inc_text (m : mins) : string :=
  match m with
  | (None, None) => "2, 3"
  | (None, Some _) => "2"
  | _ => "3"
  end.
Definition inc_lines (c : config) (m : mins) : list string :=
  if (0 <? List.length (incomps_of m))%nat && (negb (c_ignore_incomp c) || (List.length (reqs_of m) =? 0)%nat)
  then nprint c ("Incompatible versions:     " +++ inc_text m) else [].
Definition left_out_lines (c : config) (s : summary) : list string :=
  if m_incomp s && negb (c_ignore_incomp c)
  then nprint c "Note: Some files had incompatible versions so the results might not be correct!" else [].

Lemma report_shape : forall c versions s, ~ In (0, 0) (m_unique s) -> c_format c = FDefault ->
  exists range failed,
    (forall l, In l range -> exists t, l = "Version range:             " +++ t) /\
    (forall l, In l failed -> exists t, l = "Target versions not met:   " +++ t) /\
    (c_quiet c = true -> range = [] /\ failed = []) /\
    report c versions s =
      Ok (left_out_lines c s ++ tips_lines c (reqs_of (m_mins s)) s ++ (min_lines c (m_mins s) ++ note_lines c (m_mins s)) ++
          inc_lines c (m_mins s) ++ range ++ failed,
          if targets_failed c (reqs_of (m_mins s)) then 1 else 0).
Proof.
  intros c versions s U F.
  assert (R : exists range, (forall l, In l range -> exists t, l = "Version range:             " +++ t) /\
    (c_quiet c = true -> range = []) /\
    (if versions && (0 <? List.length (m_unique s))%nat
     then letr vs := vs_vers (m_unique s) "" in Ok (nprint c ("Version range:             " +++ vs)) else Ok []) = Ok range).
  { destruct (versions && _) eqn:E; [|exists []; repeat split; auto; intros l []].
    apply andb_true_iff in E as [_ E]. apply Nat.ltb_lt in E.
    destruct (vs_vers_ok (m_unique s) "") as [t T]; [intros K; rewrite K in E; simpl in E; lia | auto |].
    rewrite T. eexists. split; [|split; [|reflexivity]]; unfold nprint; destruct (c_quiet c); intros; simpl in *; auto; try tauto; try discriminate.
    destruct H as [<-|[]]. eauto. }
  destruct R as (range & R1 & R2 & R3). exists range.
  assert (T : exists failed, (forall l, In l failed -> exists t, l = "Target versions not met:   " +++ t) /\
    (c_quiet c = true -> failed = []) /\ (targets_failed c (reqs_of (m_mins s)) = false -> failed = []) /\
    (targets_failed c (reqs_of (m_mins s)) = true ->
     (letr vs := vs_strs (map target_text (c_targets c)) in Ok (nprint c ("Target versions not met:   " +++ vs))) = Ok failed)).
  { destruct (targets_failed c (reqs_of (m_mins s))) eqn:E; [|exists []; repeat split; auto; [intros l [] | discriminate]].
    unfold targets_failed in E. apply andb_true_iff in E as [E _]. apply andb_true_iff in E as [E _]. apply Nat.ltb_lt in E.
    destruct (vs_strs_ok (map target_text (c_targets c))) as [t T]; [destruct (c_targets c); simpl in *; [lia|discriminate]|].
    rewrite T. eexists. split; [|split; [|split; [discriminate|reflexivity]]]; unfold nprint; destruct (c_quiet c); intros; simpl in *; auto; try tauto; try discriminate.
    destruct H as [<-|[]]. eauto. }
  destruct T as (failed & T1 & T2 & T3 & T4). exists failed. split; auto. split; auto. split; auto.
  unfold report. cbv zeta. rewrite F. cbn [fmt_eqb negb andb]. fold (left_out_lines c s).
  assert (L2 : (if (List.length (reqs_of (m_mins s)) =? 0)%nat && (List.length (incomps_of (m_mins s)) =? 0)%nat
            then nprint c "No known reason found that it will not work with 2+ and 3+." ++
                 nprint c "Please report if it does not: https://github.com/netromdk/vermin/issues/"
            else []) = []) by (destruct (m_mins s) as [[a|] [b|]]; reflexivity).
  rewrite L2.
  assert (L4 : (if (0 <? List.length (reqs_of (m_mins s)))%nat then
      letr vs := vs_vers (reqs_of (m_mins s)) "" in
      letr note :=
        if existsb is_zero_ver (reqs_of (m_mins s)) then
          letr u := unknown_majors (reqs_of (m_mins s)) in
          Ok (nprint c ("Note: Not enough evidence to conclude it won't work with Python " +++
                        join " or " u +++ "."))
        else Ok [] in
      Ok (nprint c ("Minimum required versions: " +++ vs) ++ note)
    else Ok []) = Ok (min_lines c (m_mins s) ++ note_lines c (m_mins s))).
  { unfold note_lines. destruct (m_mins s) as [[a|] [b|]]; unfold reqs_of; cbn [fst snd somes]; [| | |reflexivity];
      cbn [List.length Nat.ltb Nat.leb]; rewrite ?vs_vers_1, ?vs_vers_2, ?unknown_1, ?unknown_2; cbn [bindr min_lines];
      destruct (existsb _ _); reflexivity. }
  rewrite L4. cbn [bindr].
  assert (L5 : (if (0 <? List.length (incomps_of (m_mins s)))%nat && true
       && (negb (c_ignore_incomp c) || (List.length (reqs_of (m_mins s)) =? 0)%nat)
    then letr vs := vs_ints (incomps_of (m_mins s)) in Ok (nprint c ("Incompatible versions:     " +++ vs))
    else Ok []) = Ok (inc_lines c (m_mins s))).
  { unfold inc_lines. rewrite andb_true_r. destruct (m_mins s) as [[a|] [b|]], (c_ignore_incomp c); reflexivity. }
  rewrite L5. cbn [bindr]. rewrite R3. cbn [bindr].
  destruct (targets_failed c (reqs_of (m_mins s))) eqn:E.
  - rewrite (T4 eq_refl). cbn [bindr app]. rewrite <- !app_assoc. reflexivity.
  - rewrite (T3 eq_refl), app_nil_r. cbn [app]. rewrite <- !app_assoc. reflexivity.
Qed.

Lemma report_code : forall c versions s, ~ In (0, 0) (m_unique s) ->
  exists lines, report c versions s = Ok (lines, if targets_failed c (reqs_of (m_mins s)) then 1 else 0).
Proof.
  intros c versions s U. destruct (c_format c) eqn:F.
  - destruct (report_shape c versions s U F) as (range & failed & _ & _ & _ & E). eauto.
  - unfold report. cbv zeta. rewrite F. cbn [fmt_eqb negb andb bindr]. rewrite !andb_false_r. cbn [andb bindr].
    destruct (versions && (0 <? List.length (m_unique s))%nat) eqn:E.
    + apply andb_true_iff in E as [_ E]. apply Nat.ltb_lt in E.
      destruct (vs_vers_ok (m_unique s) "") as [t T]; [intros K; rewrite K in E; simpl in E; lia | auto |].
      rewrite T. cbn [bindr]. destruct (targets_failed _ _); eauto.
    + cbn [bindr]. destruct (targets_failed _ _); eauto.
Qed.

(** ** What the lines say *)

Lemma nprint_In : forall c x l, In l (nprint c x) <-> c_quiet c = false /\ l = x.
Proof. intros c x l. unfold nprint. destruct (c_quiet c); simpl; intuition congruence. Qed.

Lemma tips_head : forall c reqs s l, In l (tips_lines c reqs s) -> l = "" \/ l = "Tips:" \/ l = "(disable using: --no-tips)" \/ exists t, l = "- " +++ t.
Proof.
  intros c reqs s l. unfold tips_lines. cbv zeta. destruct (_ && _); [|intros []].
  rewrite !in_app_iff. intros [H|[H|[H|[H|H]]]].
  - destruct (_ || _) in H; [apply nprint_In in H; tauto | destruct H].
  - apply nprint_In in H; tauto.
  - apply in_flat_map in H as (t & _ & H). apply nprint_In in H as [_ ->]. right. right. right. eauto.
  - apply nprint_In in H; tauto.
  - destruct (_ <? _)%nat in H; [apply nprint_In in H; tauto | destruct H].
Qed.

Lemma app_inj_s : forall p a b, p +++ a = p +++ b -> a = b.
Proof. induction p; simpl; intros a' b H; auto. injection H as H. auto. Qed.
Lemma app_inj_r : forall a b p, a +++ p = b +++ p -> a = b.
Proof.
  assert (L : forall a b, String.length (a +++ b) = (String.length a + String.length b)%nat) by (induction a; simpl; auto).
  induction a as [|x a IH]; intros [|y b] p H; auto.
  - exfalso. apply (f_equal String.length) in H. change ("" +++ p) with p in H. rewrite L in H. simpl in H. lia.
  - exfalso. apply (f_equal String.length) in H. change ("" +++ p) with p in H. rewrite L in H. simpl in H. lia.
  - change (String x a +++ p) with (String x (a +++ p)) in H. change (String y b +++ p) with (String y (b +++ p)) in H.
    injection H as -> H. f_equal. eauto.
Qed.

Section Lines.
  Variables (c : config) (versions : bool) (s : summary) (lines : list string) (code : Z).
  Hypothesis U : ~ In (0, 0) (m_unique s).
  Hypothesis F : c_format c = FDefault.
  Hypothesis Q : c_quiet c = false.
  Hypothesis R : report c versions s = Ok (lines, code).

  Lemma lines_In : forall l, In l lines <->
    In l (left_out_lines c s) \/ In l (tips_lines c (reqs_of (m_mins s)) s) \/ In l (min_lines c (m_mins s)) \/
    In l (note_lines c (m_mins s)) \/ In l (inc_lines c (m_mins s)) \/
    exists range failed, (forall l, In l range -> exists t, l = "Version range:             " +++ t) /\
      (forall l, In l failed -> exists t, l = "Target versions not met:   " +++ t) /\ 
      lines = left_out_lines c s ++ tips_lines c (reqs_of (m_mins s)) s ++ (min_lines c (m_mins s) ++ note_lines c (m_mins s)) ++
          inc_lines c (m_mins s) ++ range ++ failed /\ (In l range \/ In l failed).
  Proof using U F R.
    destruct (report_shape c versions s U F) as (range & failed & A & B & _ & E). rewrite R in E. injection E as E _.
    intros l. split.
    - intros I. rewrite E in I. rewrite !in_app_iff in I.
      destruct I as [I|[I|[[I|I]|[I|I]]]]; auto 10. do 5 right. exists range, failed. auto 10.
    - intros H. destruct H as [H|[H|[H|[H|[H|(r' & f' & _ & _ & E' & H)]]]]].
      1-5: rewrite E, !in_app_iff; tauto.
      rewrite E', !in_app_iff. tauto.
  Qed.

  Ltac no_match :=
    repeat match goal with
    | H : exists _, _ |- _ => destruct H
    | H : _ \/ _ |- _ => destruct H
    | H : _ /\ _ |- _ => destruct H
    end; subst; try discriminate.

  Lemma left_out_In : forall l, In l (left_out_lines c s) -> l = "Note: Some files had incompatible versions so the results might not be correct!".
  Proof using. intros l. unfold left_out_lines. destruct (_ && _); [|intros []]. intros H. apply nprint_In in H. tauto. Qed.
  Lemma min_In : forall l, In l (min_lines c (m_mins s)) -> exists t, l = "Minimum required versions: " +++ t.
  Proof using.
    intros l. unfold min_lines. destruct (m_mins s) as [[a|] [b|]]; intros H; try (apply nprint_In in H as [_ ->]; eauto). destruct H.
  Qed.
  Lemma note_In : forall l, In l (note_lines c (m_mins s)) -> exists t, l = "Note: Not enough evidence to conclude it won't work with Python " +++ t.
  Proof using. intros l. unfold note_lines. destruct (existsb _ _); [|intros []]. intros H. apply nprint_In in H as [_ ->]. eauto. Qed.
  Lemma inc_In : forall l, In l (inc_lines c (m_mins s)) -> exists t, l = "Incompatible versions:     " +++ t.
  Proof using. intros l. unfold inc_lines. destruct (_ && _); [|intros []]. intros H. apply nprint_In in H as [_ ->]. eauto. Qed.

  Lemma only_in : forall l, In l lines ->
    (In l (left_out_lines c s) /\ l = "Note: Some files had incompatible versions so the results might not be correct!") \/
    (In l (tips_lines c (reqs_of (m_mins s)) s) /\ (l = "" \/ l = "Tips:" \/ l = "(disable using: --no-tips)" \/ exists t, l = "- " +++ t)) \/
    (In l (min_lines c (m_mins s)) /\ exists t, l = "Minimum required versions: " +++ t) \/
    (In l (note_lines c (m_mins s)) /\ exists t, l = "Note: Not enough evidence to conclude it won't work with Python " +++ t) \/
    (In l (inc_lines c (m_mins s)) /\ exists t, l = "Incompatible versions:     " +++ t) \/
    (exists t, l = "Version range:             " +++ t) \/ (exists t, l = "Target versions not met:   " +++ t).
  Proof using U F R.
    intros l I. apply lines_In in I as [I|[I|[I|[I|[I|(r' & f' & A & B & E' & [H|H])]]]]].
    - left. split; auto. apply left_out_In; auto.
    - right; left. split; auto. eapply tips_head; eauto.
    - do 2 right; left. split; auto. apply min_In; auto.
    - do 3 right; left. split; auto. apply note_In; auto.
    - do 4 right; left. split; auto. apply inc_In; auto.
    - do 5 right; left. auto.
    - do 6 right. auto.
  Qed.

  Lemma minimum_line : report_ok (m_mins s) -> forall t,
    In ("Minimum required versions: " +++ t) lines <-> shows_minimum (m_mins s) t.
  Proof using U F Q R.
    intros (W2 & W3 & W) t. transitivity (In ("Minimum required versions: " +++ t) (min_lines c (m_mins s))).
    - split; [|intros H; apply lines_In; auto]. intros H. apply only_in in H. no_match; auto.
    - unfold min_lines. destruct (m_mins s) as [[a|] [b|]].
      + rewrite nprint_In. split.
        * intros [_ E]. apply app_inj_s in E. subst t. apply sm_both; apply one_str_writes.
        * intros H. inversion H as [? ? x y A B| |]; subst. split; auto. apply writes_one in A, B. subst. auto.
      + rewrite nprint_In. split.
        * intros [_ E]. apply app_inj_s in E. subst t. apply sm_two; apply one_str_writes.
        * intros H. inversion H as [|? x A|]; subst. split; auto. apply writes_one in A. subst. auto.
      + destruct (W eq_refl) as [K|(v & K & N)]; [discriminate|]. cbn in K. injection K as <-.
        assert (One : one_str 2 b = one_str 3 b).
        { unfold one_str. destruct (veqb b (0, 0)) eqn:E; auto. apply veqb_eq in E. contradiction. }
        rewrite nprint_In. split.
        * intros [_ E]. apply app_inj_s in E. subst t. apply sm_three. rewrite One. apply one_str_writes.
        * intros H. inversion H as [| |? x A]; subst. split; auto. apply writes_one in A. subst. rewrite One. auto.
      + split; [intros [] | intros H; inversion H].
  Qed.

  Lemma note_line : report_ok (m_mins s) -> forall t,
    In ("Note: Not enough evidence to conclude it won't work with Python " +++ t +++ ".") lines <-> shows_unknown (m_mins s) t.
  Proof using U F Q R.
    intros (W2 & W3 & W) t.
    transitivity (In ("Note: Not enough evidence to conclude it won't work with Python " +++ t +++ ".") (note_lines c (m_mins s))).
    - split; [|intros H; apply lines_In; auto]. intros H. apply only_in in H. no_match; auto.
    - assert (K : forall x, In ("Note: Not enough evidence to conclude it won't work with Python " +++ t +++ ".")
                 (nprint c ("Note: Not enough evidence to conclude it won't work with Python " +++ x +++ ".")) <-> t = x).
      { intros x. rewrite nprint_In. split; [|intros ->; auto]. intros [_ E]. apply app_inj_s in E. eapply app_inj_r; eauto. }
      assert (Z : forall v, (veqb v (0, 0) = true /\ v = (0, 0)) \/ (veqb v (0, 0) = false /\ v <> (0, 0))).
      { intros v. destruct (veqb v (0, 0)) eqn:E; [left; apply veqb_eq in E; auto | right; split; auto; intros ->; discriminate]. }
      unfold note_lines. destruct (m_mins s) as [[a|] [b|]]; unfold reqs_of, is_zero_ver, unknown_of; cbn [fst snd somes existsb].
      + destruct (Z a) as [[Za Na]|[Za Na]], (Z b) as [[Zb Nb]|[Zb Nb]]; rewrite Za, Zb; cbn [orb app join]; rewrite ?K.
        * subst. split; [intros ->; constructor|]. intros H. inversion H; subst; try reflexivity; first [congruence | match goal with N : ?x <> ?y |- _ => exfalso; apply N; reflexivity end].
        * subst. split; [intros ->; constructor; congruence|]. intros H. inversion H; subst; try reflexivity; first [congruence | match goal with N : ?x <> ?y |- _ => exfalso; apply N; reflexivity end].
        * subst. split; [intros ->; constructor; congruence|]. intros H. inversion H; subst; try reflexivity; first [congruence | match goal with N : ?x <> ?y |- _ => exfalso; apply N; reflexivity end].
        * split; [intros []|]. intros H. inversion H; subst; congruence.
      + destruct (Z a) as [[Za Na]|[Za Na]]; rewrite Za; cbn [orb join]; rewrite ?K.
        * subst. split; [intros ->; constructor; congruence|]. intros H. inversion H; subst; try reflexivity; first [congruence | match goal with N : ?x <> ?y |- _ => exfalso; apply N; reflexivity end].
        * split; [intros []|]. intros H. inversion H; subst; congruence.
      + destruct (W eq_refl) as [X|(v & X & N)]; [discriminate|]. cbn in X. injection X as <-.
        destruct (Z b) as [[Zb Nb]|[Zb Nb]]; [contradiction|]. rewrite Zb. cbn [orb].
        split; [intros []|]. intros H. inversion H; subst; congruence.
      + split; [intros []|]. intros H. inversion H.
  Qed.

  Lemma incompatible_line : c_ignore_incomp c = false \/ m_mins s = (None, None) -> forall t,
    In ("Incompatible versions:     " +++ t) lines <-> shows_incompatible (m_mins s) t.
  Proof using U F Q R.
    intros G t. transitivity (In ("Incompatible versions:     " +++ t) (inc_lines c (m_mins s))).
    - split; [|intros H; apply lines_In; auto 10]. intros H. apply only_in in H. no_match; auto.
    - unfold inc_lines.
      assert (K : forall x, In ("Incompatible versions:     " +++ t) (nprint c ("Incompatible versions:     " +++ x)) <-> t = x).
      { intros x. rewrite nprint_In. split; [|intros ->; auto]. intros [_ E]. apply app_inj_s in E. auto. }
      destruct (m_mins s) as [[a|] [b|]]; unfold incomps_of, reqs_of; cbn [fst snd somes app List.length Nat.ltb Nat.leb Nat.eqb andb inc_text].
      + split; [intros []|]. intros H. inversion H.
      + destruct G as [G|G]; [|discriminate]. rewrite G. cbn [negb orb]. rewrite K. split; [intros ->; constructor|]. intros H. inversion H; auto.
      + destruct G as [G|G]; [|discriminate]. rewrite G. cbn [negb orb]. rewrite K. split; [intros ->; constructor|]. intros H. inversion H; auto.
      + rewrite orb_true_r, K. split; [intros ->; constructor|]. intros H. inversion H; auto.
  Qed.

  (** The note about files left out. *)
  Lemma left_out_line : In "Note: Some files had incompatible versions so the results might not be correct!" lines <->
    m_incomp s = true /\ c_ignore_incomp c = false.
  Proof using U F Q R.
    transitivity (In "Note: Some files had incompatible versions so the results might not be correct!" (left_out_lines c s)).
    - split; [|intros H; apply lines_In; auto]. intros H. apply only_in in H. no_match; auto.
    - unfold left_out_lines. destruct (m_incomp s), (c_ignore_incomp c); simpl; rewrite ?nprint_In; intuition congruence.
  Qed.

  Lemma no_known_reason : ~ In "No known reason found that it will not work with 2+ and 3+." lines.
  Proof using U F R. intros H. apply only_in in H. no_match. Qed.
End Lines.

(** ** C56 *)

Section Quiet.
  Variables (h : hooks) (major : Z) (c : config) (file : string -> fcontent) (how : string -> ending).

  Lemma nprint_quiet : c_quiet c = true -> forall x, nprint c x = [].
  Proof using. intros Q x. unfold nprint. rewrite Q. auto. Qed.
  Lemma verbose_quiet : c_quiet c = true -> forall n x, verbose_print n c x = [].
  Proof using. intros Q n x. unfold verbose_print. rewrite Q, andb_false_r. auto. Qed.

  Lemma step_quiet : c_quiet c = true -> c_format c = FDefault -> forall r a a', agg_step c r a = Ok a' -> a_out a' = a_out a.
  Proof using.
    intros Q F r a a' H. destruct r as [r|]; [|injection H as <-; auto].
    assert (PI : forall p t, print_incomp c p t = "").
    { intros p t. unfold print_incomp. rewrite nprint_quiet by auto. destruct (c_ignore_incomp c); reflexivity. }
    unfold agg_step in H. destruct (r_mins r) as [| |m]; [|discriminate|].
    - injection H as <-. cbn [a_out]. rewrite PI. apply app_nil_s.
    - cbv zeta in H.
      assert (S : (if negb (c_only_show_violations c) || negb (String.eqb (r_text r) "")
                   then output_result c m (r_path r) (r_text r) else "") = "").
      { clear H. unfold output_result, default_result, vprint. rewrite F, verbose_quiet by auto. destruct (_ || _); reflexivity. }
      rewrite S, PI in H. destruct (combine2 _ _ _ _) as [m'|x].
      + injection H as <-. apply app_nil_s.
      + destruct x; try discriminate. injection H as <-. cbn [a_out]. apply app_nil_s.
  Qed.

  Lemma loop_quiet : c_quiet c = true -> c_format c = FDefault -> forall rs a, a_out (fst (agg_loop c rs a)) = a_out a.
  Proof using.
    intros Q F. induction rs as [|[r|x] rs IH]; intros a; simpl; auto.
    destruct (agg_step c r a) as [a'|] eqn:S; auto. rewrite IH. eapply step_quiet; eauto.
  Qed.

  Lemma process_quiet : c_quiet c = true -> c_format c = FDefault -> forall n paths, fst (process h major c file how n paths) = "".
  Proof using.
    intros Q F n paths. unfold process.
    assert (R : forall rs, a_out (fst (run_results c n rs)) = "").
    { intros rs. unfold run_results. destruct (n =? 1); [destruct (first_err rs); [reflexivity|apply loop_quiet; auto]|].
      destruct (n <? 1); [reflexivity | apply loop_quiet; auto]. }
    specialize (R (map (fun p => snd (process_individual h major c p (file p) (how p))) paths)).
    destruct (run_results c n _) as [a e]. cbn [fst] in R. destruct e as [e|]; [|auto].
    destruct e; cbn [fst]; auto. rewrite R, nprint_quiet by auto. reflexivity.
  Qed.

  Lemma worker_quiet : c_quiet c = true -> forall p, fst (process_individual h major c p (file p) (how p)) = [].
  Proof using.
    intros Q p. unfold process_individual. destruct (how p); try reflexivity; (destruct (file p) as [x|source ps]; [reflexivity|]);
      (destruct (parser_detect major c ps) as [node nov|m printed|x] eqn:D; try reflexivity); cbn [fst];
      unfold parser_detect in D.
    all: assert (E : forall x, match x with PeSyntax se => let (m, out) := syntax_verdict major c se in DVerdict m out | x => DExn x end = DVerdict m printed ->
      printed = []); [intros x; destruct x; try discriminate; unfold syntax_verdict, vvprint; cbv zeta; rewrite !verbose_quiet by auto;
        destruct (contains _ _); [intros K; injection K as _ <-; auto|]; destruct (_ && _); intros K; injection K as _ <-; auto|].
    all: destruct ps as [x|node toks]; [eauto|]; destruct (c_parse_comments c); [|discriminate]; destruct toks; [eauto | discriminate].
  Qed.
End Quiet.

Lemma report_quiet : forall c versions s lines code, c_quiet c = true -> c_format c = FDefault -> ~ In (0, 0) (m_unique s) ->
  report c versions s = Ok (lines, code) -> lines = [].
Proof.
  intros c versions s lines code Q F U R. destruct (report_shape c versions s U F) as (range & failed & _ & _ & E & K).
  rewrite R in K. injection K as -> _. destruct (E Q) as [-> ->].
  unfold left_out_lines, min_lines, note_lines, inc_lines, tips_lines. cbv zeta. rewrite ?nprint_quiet by auto.
  assert (N : forall x, nprint c x = []) by (apply nprint_quiet; auto).
  assert (T : forall tips : list (list string), flat_map (fun t => nprint c ("- " +++ join (nl +++ "  ") t)) tips = []).
  { induction tips; simpl; auto. rewrite N. auto. }
  rewrite T, ?N. 
  repeat match goal with |- context [if ?b then [] else []] => replace (if b then [] else []) with (@nil string) by (destruct b; reflexivity) end.
  destruct (m_mins s) as [[a|] [b|]]; rewrite ?N; cbn [app];
  repeat match goal with |- context [if ?b then [] else []] => replace (if b then [] else []) with (@nil string) by (destruct b; reflexivity) end;
  reflexivity.
Qed.

Lemma set_quiet_format : forall c, c_format (local_config c) = c_format c.
Proof. intros c. unfold local_config. destruct (_ && _); reflexivity. Qed.

Lemma unique_nonzero : forall h major c file how n paths out s, process h major c file how n paths = (out, Ok s) -> ~ In (0, 0) (m_unique s).
Proof.
  intros h major c file how n paths out s H.
  assert (AU : forall o l, ~ In (0, 0) l -> ~ In (0, 0) (add_unique o l)).
  { intros [v|] l N; simpl; auto. destruct (vltb (0, 0) v) eqn:V; auto. destruct (vmem v l); auto. rewrite in_app_iff.
    intros [K|[K|[]]]; auto. subst v. discriminate. }
  assert (ST : forall r a a', agg_step c r a = Ok a' -> ~ In (0, 0) (a_unique a) -> ~ In (0, 0) (a_unique a')).
  { intros r a a' E N. destruct r as [r|]; [|injection E as <-; auto]. unfold agg_step in E.
    destruct (r_mins r) as [| |m]; [injection E as <-; auto|discriminate|]. cbv zeta in E.
    destruct (combine2 _ _ _ _) as [m'|x]; [injection E as <-; cbn [a_unique]; auto|].
    destruct x; try discriminate. injection E as <-; cbn [a_unique]; auto. }
  assert (L : forall rs a, ~ In (0, 0) (a_unique a) -> ~ In (0, 0) (a_unique (fst (agg_loop c rs a)))).
  { induction rs as [|[r|x] rs IH]; intros a N; simpl; auto. destruct (agg_step c r a) as [a'|] eqn:S; auto. apply IH. eapply ST; eauto. }
  assert (R : forall rs, ~ In (0, 0) (a_unique (fst (run_results c n rs)))).
  { intros rs. unfold run_results. destruct (n =? 1); [destruct (first_err rs); [simpl; auto|apply L; simpl; auto]|].
    destruct (n <? 1); [simpl; auto | apply L; simpl; auto]. }
  unfold process in H. specialize (R (map (fun p => snd (process_individual h major c p (file p) (how p))) paths)).
  destruct (run_results c n _) as [a e]. cbn [fst] in R.
  assert (G : forall o, (o, Ok (summary_of a)) = (out, Ok s) -> ~ In (0, 0) (m_unique s)).
  { intros o K. injection K as _ <-. cbn [summary_of m_unique]. rewrite isort_In. auto. }
  destruct e as [e|]; [|eauto]. destruct e; try discriminate. eauto.
Qed.

(** What a run prints in the parent, quiet or not, when there are files. *)
Lemma run_quiet_gen : forall w c versions files, c_quiet c = true -> c_format c = FDefault ->
  fst (run_files w c versions files) =
  match files with
  | [] => ""
  | _ => fst (process (w_hooks w) (w_major w) (local_config c) (w_file w) (w_ending w) (c_processes (local_config c)) files)
  end.
Proof.
  intros w c versions files Q F. unfold run_files. cbv zeta. rewrite F. cbn [fmt_eqb].
  destruct files as [|f fs]; [rewrite nprint_quiet by auto; reflexivity|].
  unfold vprint. rewrite verbose_quiet by auto. change (print_lines []) with "".
  destruct (process _ _ _ _ _ _ _) as [out r] eqn:P. cbn [fst]. destruct r as [s|x].
  - destruct (report c versions s) as [[lines code]|x] eqn:R; [|reflexivity]. cbn [fst].
    rewrite (report_quiet c versions s lines code Q F (unique_nonzero _ _ _ _ _ _ _ _ _ P) R). change (print_lines []) with "".
    change ("" +++ out +++ "") with (out +++ ""). apply app_nil_s.
  - destruct x; try reflexivity. rewrite nprint_quiet by auto. change (print_lines []) with "".
    change ("" +++ out +++ "") with (out +++ ""). cbn [fst]. apply app_nil_s.
Qed.

(** Violations mode, nothing to report. *)
Lemma step_clean : forall c r a a', c_only_show_violations c = true -> (forall p, r = Some p -> r_text p = "") ->
  agg_step c r a = Ok a' -> a_incomp a' = false -> a_out a' = a_out a /\ a_incomp a = false.
Proof.
  intros c r a a' V T H I. destruct r as [r|]; [|injection H as <-; auto]. specialize (T r eq_refl).
  unfold agg_step in H. rewrite V, T in H. cbn [negb orb String.eqb] in H. cbv zeta in H.
  destruct (r_mins r) as [| |m]; [injection H as <-; discriminate|discriminate|].
  destruct (combine2 _ _ _ _) as [m'|x].
  - injection H as <-. cbn [a_out a_incomp] in *. rewrite app_nil_s. auto.
  - destruct x; try discriminate. injection H as <-. discriminate.
Qed.
Lemma loop_clean : forall c rs a a', c_only_show_violations c = true -> (forall p, In (Ok (Some p)) rs -> r_text p = "") ->
  agg_loop c rs a = (a', None) -> a_incomp a' = false -> a_out a' = a_out a /\ a_incomp a = false.
Proof.
  intros c. induction rs as [|[r|x] rs IH]; intros a a' V T H I; simpl in H.
  - injection H as <-. auto.
  - destruct (agg_step c r a) as [b|] eqn:S; [|discriminate].
    destruct (IH b a' V) as [E1 E2]; auto. { intros p P. apply T. right; auto. }
    destruct (step_clean c r a b V) as [K1 K2]; auto. { intros p ->. apply T. left; auto. }
    rewrite E1. auto.
  - discriminate.
Qed.
Lemma process_clean : forall h major c file how n paths rs out s, analysed h major c file how paths rs -> 1 <= n ->
  c_only_show_violations c = true -> (forall r, In (Some r) rs -> r_text r = "") ->
  process h major c file how n paths = (out, Ok s) -> m_incomp s = false -> toured rs -> out = "".
Proof.
  intros h major c file how n paths rs out s A N V T H I To. unfold process in H. rewrite (analysed_map _ _ _ _ _ _ _ A) in H.
  rewrite run_results_ok in H by auto. destruct (agg_loop_ok c rs agg_init To) as (a & E & _). rewrite E in H.
  injection H as <- <-. assert (K : a_out a = a_out agg_init /\ a_incomp agg_init = false); [|apply K].
  apply (loop_clean c (map Ok rs)); auto.
  intros p P. apply in_map_iff in P as (x & X & P). injection X as ->. auto.
Qed.

(** ** C54 *)

Lemma run_code : forall w c versions files out s,
  process (w_hooks w) (w_major w) (local_config c) (w_file w) (w_ending w) (c_processes (local_config c)) files = (out, Ok s) ->
  files <> [] ->
  snd (run_files w c versions files) = Ok (if targets_failed c (reqs_of (m_mins s)) then 1 else 0).
Proof.
  intros w c versions files out s P N. unfold run_files. cbv zeta. destruct files as [|f fs]; [congruence|]. rewrite P.
  destruct (report_code c versions s (unique_nonzero _ _ _ _ _ _ _ _ _ P)) as [lines ->]. reflexivity.
Qed.
