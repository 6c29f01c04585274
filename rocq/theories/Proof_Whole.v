(** The whole output of a run in the default format. Lemmas for C73. *)
From Coq Require Import Sorting.Sorted.
From Verif Require Import PyBase PyLemmas Utility RulesData Rules Config Formats Paths Ini AstKinds Ast State Visitor
  MinVersions Parser Detection Arguments Pool Processor Main UsageData Usage Messages Spec_Base Spec_Utility Spec_Rules Spec_Config
  Spec_Detection Spec_Formats Spec_MinVersions Spec_Main Spec_Args Spec_Messages Spec_Tips Spec_Whole
  Proof_Strings Proof_Utility Proof_Rules Proof_Config Proof_Detection Proof_Formats Proof_MinVersions Proof_Main
  Proof_Report Proof_Parser Proof_Args Proof_Messages Proof_Tips Spec_Targets Proof_Targets.

(** *** Blocks of at most one line *)
Lemma shown_In P b : (forall l, In l b <-> P l) -> (List.length b <= 1)%nat -> shown P b.
Proof.
  intros I L. destruct b as [|x [|y b]]; [|..|cbn in L; lia].
  - apply shown_not. intros l H. apply I in H. destruct H.
  - apply shown_line; [apply I; left; reflexivity|]. intros l' H. apply I in H as [H|[]]. congruence.
Qed.
Lemma nprint_le c x : (List.length (nprint c x) <= 1)%nat.
Proof. unfold nprint. destruct (c_quiet c); cbn; lia. Qed.

(** *** Cutting texts *)
Lemma one_line_nil : one_line "".
Proof. intros [|? ?] c b E; discriminate E. Qed.
Lemma one_line_snoc l x : one_line l -> is_linebreak x = false -> one_line (l +++ chr x).
Proof.
  revert x. induction l as [|y l IH]; intros x N B a c b E.
  - destruct a as [|a0 a]; injection E as E1 E2; [subst; exact B|]. destruct a; discriminate E2.
  - destruct a as [|a0 a]; injection E as E1 E2.
    + subst. exact (N "" c l eq_refl).
    + eapply (IH x); [|exact B|exact E2]. intros a' c' b' E'. apply (N (String y a') c' b'). rewrite E'. reflexivity.
Qed.
Lemma keep_broken : forall n s cur, (String.length s <= n)%nat -> one_line cur -> broken (cur +++ s) (splitlines_aux true cur s).
Proof.
  induction n as [|n IH]; intros s cur L N; destruct s as [|x s]; try (cbn in L; lia).
  - cbn. rewrite app_nil_s. destruct cur; [constructor|]. apply bk_last; [discriminate|exact N].
  - cbn. rewrite app_nil_s. destruct cur; [constructor|]. apply bk_last; [discriminate|exact N].
  - cbn in L. cbn [splitlines_aux]. destruct (is_linebreak x) eqn:B.
    + destruct (Ascii.eqb x (ascii_of_nat 13)) eqn:C.
      * apply Ascii.eqb_eq in C. subst x. destruct s as [|d s].
        -- apply (bk_line cur (ascii_of_nat 13) "" []); auto; [discriminate|constructor].
        -- destruct (Ascii.eqb d (ascii_of_nat 10)) eqn:D.
           ++ apply Ascii.eqb_eq in D. subst d. apply bk_both; [exact N|]. apply (IH s ""); [cbn in L; lia|apply one_line_nil].
           ++ apply bk_line; auto; [|apply (IH (String d s) ""); [cbn in *; lia|apply one_line_nil]].
              intros _ r E. injection E as -> _. discriminate D.
      * apply bk_line; auto; [|apply (IH s ""); [lia|apply one_line_nil]].
        intros ->. discriminate C.
    + replace (cur +++ String x s) with ((cur +++ chr x) +++ s) by (rewrite app_assoc_s; reflexivity).
      apply IH; [lia|]. apply one_line_snoc; assumption.
Qed.
Lemma join_moved : forall ps, ps <> [] -> "  " +++ join "  " ps = moved_in ps.
Proof.
  induction ps as [|x [|y r] IH]; intros N; [congruence| |].
  - cbn. rewrite app_nil_s. reflexivity.
  - change (join "  " (x :: y :: r)) with (x +++ "  " +++ join "  " (y :: r)). rewrite IH by discriminate. reflexivity.
Qed.
Lemma broken_nonempty text ps : broken text ps -> text <> "" -> ps <> [].
Proof. intros B N ->. inversion B. congruence. Qed.
Lemma broken_empty text ps : broken text ps -> text = "" -> ps = [].
Proof. intros B E. destruct B; try reflexivity; [congruence|destruct l; discriminate|destruct l; discriminate]. Qed.
Lemma broken_piece text ps : broken text ps -> Forall (fun p => p <> "") ps.
Proof. induction 1; constructor; auto; try (destruct l; discriminate). Qed.
Lemma ends_app u v : v <> "" -> endswith nl (u +++ v) = endswith nl v.
Proof.
  intros N. apply eq_true_iff_eq. rewrite !endswith_iff. split.
  - intros (a & E). destruct (last_char u v N a (ascii_of_nat 10)) as (r & R); [exact E|]. exists r. exact R.
  - intros (a & ->). exists (u +++ a). rewrite app_assoc_s. reflexivity.
Qed.
Lemma moved_ends text ps : broken text ps -> text <> "" -> endswith nl (moved_in ps) = endswith nl text.
Proof.
  induction 1 as [|l N O|l x rest ps O L C B IH|l rest ps O B IH]; intros T; [congruence| | |].
  - cbn [moved_in]. rewrite app_nil_s. apply ends_app. exact N.
  - cbn [moved_in]. destruct rest as [|y rest].
    + rewrite (broken_empty _ _ B eq_refl). cbn [moved_in]. rewrite app_nil_s. apply ends_app. destruct l; discriminate.
    + assert (P := broken_nonempty _ _ B ltac:(discriminate)). assert (F := broken_piece _ _ B).
      assert (M : moved_in ps <> "") by (destruct ps; [congruence|discriminate]).
      rewrite <- app_assoc_s. rewrite (ends_app _ (moved_in ps) M), (IH ltac:(discriminate)).
      replace (l +++ String x (String y rest)) with ((l +++ chr x) +++ String y rest) by (rewrite app_assoc_s; reflexivity).
      symmetry. apply ends_app. discriminate.
  - cbn [moved_in]. destruct rest as [|y rest].
    + rewrite (broken_empty _ _ B eq_refl). cbn [moved_in]. rewrite app_nil_s. apply ends_app. destruct l; discriminate.
    + assert (P := broken_nonempty _ _ B ltac:(discriminate)). assert (M : moved_in ps <> "") by (destruct ps; [congruence|discriminate]).
      rewrite <- app_assoc_s. rewrite (ends_app _ (moved_in ps) M), (IH ltac:(discriminate)).
      replace (l +++ String (ascii_of_nat 13) (String (ascii_of_nat 10) (String y rest)))
        with ((l +++ String (ascii_of_nat 13) nl) +++ String y rest) by (rewrite app_assoc_s; reflexivity).
      symmetry. apply ends_app. discriminate.
Qed.

Lemma one_printed l : print_lines [l] = l +++ nl.
Proof. unfold print_lines. cbn. rewrite app_nil_s. reflexivity. Qed.

Lemma default_text c m path text : c_quiet c = false -> 1 <= c_verbose c ->
  file_text m path text (print_lines (default_result c m path text)).
Proof.
  intros Q V. unfold default_result, vprint, verbose_print. rewrite Q. replace (1 <=? c_verbose c) with true by (symmetry; apply Z.leb_le; exact V).
  cbn [andb negb]. cbv zeta. rewrite one_printed.
  unfold pad_right, mins_str. destruct (srepeat_space (12 - String.length (opt_ver_str 2 (fst m) +++ ", " +++ opt_ver_str 3 (snd m)))) as [P L].
  set (a := opt_ver_str 2 (fst m)) in *. set (b := opt_ver_str 3 (snd m)) in *. set (pad := srepeat " " _) in *.
  assert (W2 : writes 2 (fst m) a) by apply opt_ver_str_writes. assert (W3 : writes 3 (snd m) b) by apply opt_ver_str_writes.
  assert (Le : String.length (a +++ ", " +++ b +++ pad) = Nat.max 12 (String.length (a +++ ", " +++ b))).
  { replace (a +++ ", " +++ b +++ pad) with ((a +++ ", " +++ b) +++ pad) by (rewrite !app_assoc_s; reflexivity). rewrite length_app_s, L. lia. }
  destruct (String.eqb text "") eqn:E.
  - apply String.eqb_eq in E. rewrite app_nil_s, !app_assoc_s. apply ft_plain; assumption.
  - apply String.eqb_neq in E. assert (B := keep_broken _ text "" (le_n _) one_line_nil). change ("" +++ text) with text in B.
    fold (splitlines_keep text) in B. rewrite join_moved by exact (broken_nonempty _ _ B E).
    rewrite ends_app by (destruct (splitlines_keep text) eqn:K; [exfalso; exact (broken_nonempty _ _ B E eq_refl)|discriminate]).
    rewrite (moved_ends _ _ B E). rewrite !app_assoc_s.
    assert (R := ft_found m path text a b pad (splitlines_keep text) E W2 W3 P Le B).
    destruct (endswith nl text); rewrite ?app_assoc_s; exact R.
Qed.

(** *** Files in order *)
Lemma file_shown_dec c text : (if negb (c_only_show_violations c) || negb (String.eqb text "")
  then (1 <=? c_verbose c) && negb (c_quiet c) else false) = true <-> file_shown c text.
Proof.
  unfold file_shown. destruct (String.eqb text "") eqn:E.
  - apply String.eqb_eq in E. destruct (c_only_show_violations c); cbn [negb orb]; rewrite ?andb_true_iff, ?negb_true_iff, ?Z.leb_le; intuition congruence.
  - apply String.eqb_neq in E. rewrite orb_true_r, andb_true_iff, negb_true_iff, Z.leb_le. intuition.
Qed.
Lemma result_printed c r m : c_format c = FDefault ->
  result_text c r m (if negb (c_only_show_violations c) || negb (String.eqb (r_text r) "") then output_result c m (r_path r) (r_text r) else "").
Proof.
  intros F. unfold output_result. rewrite F. assert (D := file_shown_dec c (r_text r)).
  destruct (negb (c_only_show_violations c) || negb (String.eqb (r_text r) "")).
  - destruct ((1 <=? c_verbose c) && negb (c_quiet c)) eqn:E.
    + assert (S := proj1 D eq_refl). apply rt_shown; [exact S|]. destruct S as (Q & V & _). apply default_text; assumption.
    + replace (print_lines (default_result c m (r_path r) (r_text r))) with "".
      * apply rt_not. intros S. apply D in S. discriminate.
      * unfold default_result, vprint, verbose_print. rewrite E. reflexivity.
  - apply rt_not. intros S. apply D in S. discriminate.
Qed.
Lemma incomp_printed c r : incompatible_text c r (print_incomp c (r_path r) (r_text r)).
Proof.
  unfold print_incomp. destruct (c_ignore_incomp c) eqn:I; [apply it_not; auto|]. unfold nprint. destruct (c_quiet c) eqn:Q; [apply it_not; auto|].
  rewrite one_printed. destruct (String.eqb (r_text r) "") eqn:E.
  - apply String.eqb_eq in E. rewrite E. rewrite app_nil_s, app_assoc_s. apply it_plain; assumption.
  - apply String.eqb_neq in E. rewrite !app_assoc_s. apply it_found; assumption.
Qed.
Lemma loop_sections c : c_format c = FDefault -> forall rs a a', agg_loop c (map Ok rs) a = (a', None) ->
  exists t, a_out a' = a_out a +++ t /\ sections c (a_mins a) rs t.
Proof.
  intros F. induction rs as [|[r|] rs IH]; intros a a' E; cbn [map agg_loop] in E.
  - injection E as <-. exists "". rewrite app_nil_s. split; [reflexivity|constructor].
  - unfold agg_step in E. destruct (r_mins r) as [| |m] eqn:M.
    + destruct (IH _ _ E) as (t & O & S). cbn [a_out a_mins] in O, S. rewrite O, app_assoc_s. eexists. split; [reflexivity|].
      apply sec_contradiction; [exact M|apply incomp_printed|exact S].
    + discriminate E.
    + cbv zeta in E. assert (R := result_printed c r m F). rewrite combine2_cases in E.
      destruct (negb (c_ignore_incomp c) && clash (a_mins a) m) eqn:K; destruct (IH _ _ E) as (t & O & S); cbn [a_out a_mins] in O, S; rewrite O, !app_assoc_s;
        eexists; (split; [reflexivity|]).
      * apply andb_true_iff in K as [K1 K2]. apply negb_true_iff in K1. apply clash_iff in K2.
        eapply sec_clashes; eauto. apply incomp_printed.
      * eapply sec_fits; eauto.
        -- destruct (c_ignore_incomp c); [left; reflexivity|]. right. cbn in K. rewrite <- clash_iff. congruence.
        -- apply (combine2_join true None). reflexivity.
  - destruct (IH _ _ E) as (t & O & S). exists t. split; [exact O|]. apply sec_other. exact S.
Qed.
Lemma process_sections h major c file how n paths rs out s : analysed h major c file how paths rs -> toured rs -> 1 <= n -> c_format c = FDefault ->
  process h major c file how n paths = (out, Ok s) -> sections c zero_mins rs out.
Proof.
  intros A T N F P. unfold process in P. rewrite (analysed_map _ _ _ _ _ _ _ A), run_results_ok in P by auto.
  destruct (agg_loop_ok c rs agg_init T) as (a & E & R). rewrite E in P. injection P as <- _.
  destruct (loop_sections c F rs agg_init a E) as (t & O & S). rewrite O. exact S.
Qed.

(** *** Lists of versions *)
Lemma vs_listed i l : ~ In (0, 0) l -> l <> [] ->
  listed version_text l (join ", " (version_strings_from no_float_str i (map (fun v => VPv (PTup v)) l))).
Proof.
  revert i. induction l as [|v l IH]; intros i Z N; [congruence|]. cbn [map version_strings_from].
  assert (E : version_string1 no_float_str i (VPv (PTup v)) = z_str (fst v) +++ "." +++ z_str (snd v)).
  { unfold version_string1. cbn [is_unknown]. destruct (veqb v (0, 0)) eqn:E; [apply veqb_eq in E; subst; exfalso; apply Z; left; reflexivity|]. destruct v. reflexivity. }
  destruct l as [|w l].
  - cbn [map version_strings_from join]. apply ld_one. exact E.
  - assert (L := IH (i + 1) (fun K => Z (or_intror K)) ltac:(discriminate)). cbn [map version_strings_from] in L |- *.
    change (join ", " (?a :: ?b :: ?r)) with (a +++ ", " +++ join ", " (b :: r)). apply ld_more; [exact E|exact L].
Qed.
Lemma strs_listed i l : l <> [] -> listed target_written l (join ", " (version_strings_from no_float_str i (map VStrI (map target_text l)))).
Proof.
  revert i. induction l as [|[e v] l IH]; intros i N; [congruence|]. cbn [map version_strings_from].
  assert (E : target_written (e, v) (version_string1 no_float_str i (VStrI (target_text (e, v))))).
  { unfold version_string1, target_text. cbn. destruct e; [rewrite app_nil_s; apply tw_exact|apply tw_minimum]; destruct v; reflexivity. }
  destruct l as [|w l].
  - cbn [map version_strings_from join]. apply ld_one. exact E.
  - assert (L := IH (i + 1) ltac:(discriminate)). cbn [map version_strings_from] in L |- *.
    change (join ", " (?a :: ?b :: ?r)) with (a +++ ", " +++ join ", " (b :: r)). apply ld_more; [exact E|exact L].
Qed.
Lemma listed_one A (W : A -> string -> Prop) : (forall x t u, W x t -> W x u -> t = u) -> forall l t u, listed W l t -> listed W l u -> t = u.
Proof.
  intros D l t u H. revert u. induction H as [x t H|x t l r H L IH]; intros u K; inversion K; subst.
  - eapply D; eassumption.
  - inversion H4.
  - inversion L.
  - rewrite (D _ _ _ H H2), (IH _ H4). reflexivity.
Qed.
Lemma version_one v t u : version_text v t -> version_text v u -> t = u.
Proof. unfold version_text. congruence. Qed.
Lemma target_one g t u : target_written g t -> target_written g u -> t = u.
Proof. intros [v a A|v a A] B; inversion B; subst; rewrite (version_one _ _ _ A H0) in *; reflexivity. Qed.
Lemma listed_nil A (W : A -> string -> Prop) t : ~ listed W [] t.
Proof. intros H. inversion H. Qed.

(** *** The report *)
Definition range_lines (c : config) (versions : bool) (s : summary) : list string :=
  if versions && (0 <? List.length (m_unique s))%nat
  then nprint c ("Version range:             " +++ join ", " (version_strings_from no_float_str 0 (map (fun v => VPv (PTup v)) (m_unique s)))) else [].
Definition failed_lines (c : config) (s : summary) : list string :=
  if targets_failed c (reqs_of (m_mins s))
  then nprint c ("Target versions not met:   " +++ join ", " (version_strings_from no_float_str 0 (map VStrI (map target_text (c_targets c))))) else [].

Lemma report_exact c versions s : ~ In (0, 0) (m_unique s) -> c_format c = FDefault ->
  report c versions s = Ok (left_out_lines c s ++ tips_lines c (reqs_of (m_mins s)) s ++ (min_lines c (m_mins s) ++ note_lines c (m_mins s)) ++
    inc_lines c (m_mins s) ++ range_lines c versions s ++ failed_lines c s, if targets_failed c (reqs_of (m_mins s)) then 1 else 0).
Proof.
  intros U F.
  assert (R3 : (if versions && (0 <? List.length (m_unique s))%nat
     then letr vs := vs_vers (m_unique s) "" in Ok (nprint c ("Version range:             " +++ vs)) else Ok []) = Ok (range_lines c versions s)).
  { unfold range_lines. destruct (versions && _) eqn:E; [|reflexivity]. apply andb_true_iff in E as [_ E]. apply Nat.ltb_lt in E.
    destruct (vs_vers_ok (m_unique s) "") as [t T]; [intros K; rewrite K in E; simpl in E; lia | auto |].
    rewrite T. cbn [bindr]. unfold vs_vers, version_strings, version_strings_gen in T. cbv zeta in T. destruct (_ =? _)%nat in T; [discriminate T|]. destruct (_ && _) in T; [discriminate T|].
    injection T as <-. reflexivity. }
  assert (T4 : targets_failed c (reqs_of (m_mins s)) = true ->
     (letr vs := vs_strs (map target_text (c_targets c)) in Ok (nprint c ("Target versions not met:   " +++ vs))) = Ok (failed_lines c s)).
  { intros E. unfold failed_lines. rewrite E.
    unfold targets_failed in E. apply andb_true_iff in E as [E _]. apply andb_true_iff in E as [E _]. apply Nat.ltb_lt in E.
    destruct (vs_strs_ok (map target_text (c_targets c))) as [t T]; [destruct (c_targets c); simpl in *; [lia|discriminate]|].
    rewrite T. cbn [bindr]. unfold vs_strs, version_strings, version_strings_gen in T. cbv zeta in T. destruct (_ =? _)%nat in T; [discriminate T|]. destruct (_ && _) in T; [discriminate T|].
    injection T as <-. reflexivity. }
  unfold report. cbv zeta. rewrite F. cbn [fmt_eqb negb andb]. fold (left_out_lines c s).
  assert (L2 : (if (List.length (reqs_of (m_mins s)) =? 0)%nat && (List.length (incomps_of (m_mins s)) =? 0)%nat
            then nprint c "No known reason found that it will not work with 2+ and 3+." ++
                 nprint c "Please report if it does not: https://github.com/netromdk/vermin/issues/"
            else []) = []) by (destruct (m_mins s) as [[a|] [b|]]; reflexivity).
  rewrite L2.
  assert (L4 : (if (0 <? List.length (reqs_of (m_mins s)))%nat then
      letr vs := vs_vers (reqs_of (m_mins s)) "" in
      letr note :=
        if existsb is_zero_ver (reqs_of (m_mins s)) then
          letr u := unknown_majors (reqs_of (m_mins s)) in
          Ok (nprint c ("Note: Not enough evidence to conclude it won't work with Python " +++
                        join " or " u +++ "."))
        else Ok [] in
      Ok (nprint c ("Minimum required versions: " +++ vs) ++ note)
    else Ok []) = Ok (min_lines c (m_mins s) ++ note_lines c (m_mins s))).
  { unfold note_lines. destruct (m_mins s) as [[a|] [b|]]; unfold reqs_of; cbn [fst snd somes]; [| | |reflexivity];
      cbn [List.length Nat.ltb Nat.leb]; rewrite ?vs_vers_1, ?vs_vers_2, ?unknown_1, ?unknown_2; cbn [bindr min_lines];
      destruct (existsb _ _); reflexivity. }
  rewrite L4. cbn [bindr].
  assert (L5 : (if (0 <? List.length (incomps_of (m_mins s)))%nat && true
       && (negb (c_ignore_incomp c) || (List.length (reqs_of (m_mins s)) =? 0)%nat)
    then letr vs := vs_ints (incomps_of (m_mins s)) in Ok (nprint c ("Incompatible versions:     " +++ vs))
    else Ok []) = Ok (inc_lines c (m_mins s))).
  { unfold inc_lines. rewrite andb_true_r. destruct (m_mins s) as [[a|] [b|]], (c_ignore_incomp c); reflexivity. }
  rewrite L5. cbn [bindr]. rewrite R3. cbn [bindr].
  destruct (targets_failed c (reqs_of (m_mins s))) eqn:E.
  - rewrite (T4 eq_refl). cbn [bindr app]. rewrite <- !app_assoc. reflexivity.
  - unfold failed_lines. rewrite E, app_nil_r. cbn [app]. rewrite <- !app_assoc. reflexivity.
Qed.

Section Report.
  Variables (c : config) (versions : bool) (s : summary).
  Hypothesis Nq : c_quiet c = false.
  Hypothesis Fm : c_format c = FDefault.
  Hypothesis U : ~ In (0, 0) (m_unique s).
  Hypothesis Nd : NoDup (m_bps s).
  Hypothesis Kn : Forall known_backport (m_bps s).

  Lemma nprint_loud x : nprint c x = [x].
  Proof using Nq. unfold nprint. rewrite Nq. reflexivity. Qed.

  Lemma names_In b : In b (names_of c s) <-> In b (m_bps s) /\ ~ enabled c b.
  Proof using. unfold names_of. rewrite isort_In, filter_In, negb_true_iff, enabled_iff. destruct (mem b _); intuition congruence. Qed.
  Lemma names_sorted : StronglySorted str_lt (names_of c s).
  Proof using Nd. apply sorted_strict, NoDup_filter, Nd. Qed.
  Lemma names_all : Forall known_backport (names_of c s).
  Proof using Kn. apply Forall_forall. intros b I. apply names_In in I as [I _]. rewrite Forall_forall in Kn. auto. Qed.
  Lemma sorted_lt_unique (l l' : list string) : StronglySorted str_lt l -> StronglySorted str_lt l' -> (forall x, In x l <-> In x l') -> l = l'.
  Proof using.
    intros S. revert l'. induction S as [|x l S IH F]; intros l' S' E.
    - destruct l' as [|y l']; [reflexivity|]. exfalso. apply (E y). left. reflexivity.
    - assert (Irr : forall z, ~ str_lt z z). { intros z H. unfold str_lt in H. rewrite (proj2 (str_compare_eq z z) eq_refl) in H. discriminate. }
      assert (Tr : forall a b, str_lt a b -> str_lt b a -> False).
      { intros a b A B. unfold str_lt in *. rewrite str_compare_antisym in A. destruct (str_compare b a); discriminate. }
      destruct S' as [|y l' S' F']; [exfalso; apply (E x); left; reflexivity|].
      rewrite Forall_forall in F, F'. assert (x = y).
      { destruct (proj1 (E x) (or_introl eq_refl)) as [H|H]; [congruence|]. destruct (proj2 (E y) (or_introl eq_refl)) as [K|K]; [congruence|].
        exfalso. exact (Tr _ _ (F y K) (F' x H)). }
      subst y. f_equal. apply IH; [exact S'|]. intros z. split; intros I.
      + destruct (proj1 (E z) (or_intror I)) as [H|H]; [subst z; exfalso; exact (Irr _ (F _ I))|exact H].
      + destruct (proj2 (E z) (or_intror I)) as [H|H]; [subst z; exfalso; exact (Irr _ (F' _ I))|exact H].
  Qed.

  Lemma tips_exact : tips_text c s (tips_lines c (reqs_of (m_mins s)) s).
  Proof using Nq Nd Kn.
    set (names := names_of c s).
    exists (if m_maybe s && negb (c_eval_annotations c) then [annotations_tip] else []),
      (match names with [] => [] | _ => [backports_tip names] end),
      (if negb (m_novm s) && c_parse_comments c then [comments_tip] else []),
      (if (List.length (reqs_of (m_mins s)) =? 0)%nat
        || ((List.length (reqs_of (m_mins s)) =? 2)%nat && forallb is_zero_ver (reqs_of (m_mins s)) && (0 <? c_verbose c))
        || ((0 <? List.length (reqs_of (m_mins s)))%nat && (0 <? c_verbose c) && (c_verbose c <? 2)) then [""] else []),
      (if (0 <? List.length (reqs_of (m_mins s)))%nat then [""] else []).
    split; [|split; [|split; [|split; [|split]]]].
    - destruct (m_maybe s), (c_eval_annotations c); cbn [negb andb]; (apply shown_In; [|cbn; lia]); cbn; intuition congruence.
    - destruct names as [|b l] eqn:E.
      + apply shown_not. intros t (ns & _ & N & _ & I). destruct ns as [|x ns]; [congruence|].
        assert (J : In x names) by (apply names_In, I; left; reflexivity). rewrite E in J. destruct J.
      + rewrite <- E. apply shown_line.
        * exists names. split; [reflexivity|]. split; [rewrite E; discriminate|]. split; [apply names_sorted|]. intros x. apply names_In.
        * intros l' (ns & -> & _ & S & I). f_equal. apply sorted_lt_unique; [exact S|apply names_sorted|]. intros x. rewrite I. symmetry. apply names_In.
    - destruct (m_novm s), (c_parse_comments c); cbn [negb andb]; (apply shown_In; [|cbn; lia]); cbn; intuition congruence.
    - match goal with |- shown _ (if ?b then _ else _) => assert (G : b = true <-> gap c (m_mins s)) end.
      { unfold gap. assert (Z : forall v, is_zero_ver v = true <-> v = (0, 0)) by (intros v; apply veqb_eq).
        assert (V : (c_verbose c <= 0 \/ c_verbose c = 1 \/ 2 <= c_verbose c)) by lia.
        assert (V0 := Z.ltb_lt 0 (c_verbose c)). assert (V2 := Z.ltb_lt (c_verbose c) 2).
        destruct (m_mins s) as [[a|] [b|]]; unfold reqs_of; cbn [fst snd somes List.length Nat.eqb Nat.ltb Nat.leb orb andb forallb].
        - assert (Za := Z a). assert (Zb := Z b). clear Z.
          transitivity ((a = (0, 0) /\ b = (0, 0)) /\ 1 <= c_verbose c \/ c_verbose c = 1).
          + destruct (is_zero_ver a), (is_zero_ver b), (0 <? c_verbose c), (c_verbose c <? 2); cbn [andb orb]; intuition (try discriminate; try lia).
          + split.
            * intros [[[-> ->] H]|H]; [right; left; auto|right; right; split; [discriminate|exact H]].
            * intros [H|[[H1 H2]|[_ H]]]; [discriminate|injection H1 as -> ->; left; auto|right; exact H].
        - transitivity (c_verbose c = 1).
          + destruct (0 <? c_verbose c), (c_verbose c <? 2); cbn [andb orb]; intuition (try discriminate; try lia).
          + split; [intros H; right; right; split; [discriminate|exact H]|intros [H|[[H _]|[_ H]]]; try discriminate; exact H].
        - transitivity (c_verbose c = 1).
          + destruct (0 <? c_verbose c), (c_verbose c <? 2); cbn [andb orb]; intuition (try discriminate; try lia).
          + split; [intros H; right; right; split; [discriminate|exact H]|intros [H|[[H _]|[_ H]]]; try discriminate; exact H].
        - split; auto. }
      match goal with |- shown _ (if ?b then _ else _) => destruct b end.
      + apply shown_In; [|cbn; lia]. intros l. cbn. assert (gap c (m_mins s)) by (apply G; reflexivity). intuition congruence.
      + apply shown_not. intros l [_ H]. apply G in H. discriminate.
    - destruct (m_mins s) as [[a|] [b|]]; (apply shown_In; [|cbn; lia]); cbn; intuition congruence.
    - unfold tips_lines. cbv zeta.
      assert (T : flat_map (fun t => nprint c ("- " +++ join (nl +++ "  ") t)) (tips_of c s) =
        (if m_maybe s && negb (c_eval_annotations c) then [annotations_tip] else []) ++
        (match names with [] => [] | _ => [backports_tip names] end) ++
        (if negb (m_novm s) && c_parse_comments c then [comments_tip] else [])).
      { unfold tips_of. fold (names_of c s). fold names. cbv zeta. rewrite !flat_map_app. f_equal; [|f_equal].
        - destruct (_ && _); [|reflexivity]. cbn [flat_map]. rewrite nprint_loud. reflexivity.
        - assert (O := option_text names names_all). destruct names as [|b l]; [reflexivity|]. cbn [List.length Nat.ltb Nat.leb flat_map]. rewrite nprint_loud, app_nil_r.
          f_equal. rewrite O. unfold backports_tip, backports_said. cbn [join]. rewrite !app_assoc_s. reflexivity.
        - destruct (_ && _); [|reflexivity]. cbn [flat_map]. rewrite nprint_loud. reflexivity. }
      rewrite !nprint_loud, T. match type of T with _ = ?r => set (all := r) in * end.
      assert (L : (0 <? List.length (tips_of c s))%nat = match all with [] => false | _ => true end).
      { rewrite <- T. destruct (tips_of c s) as [|t l]; [reflexivity|]. cbn [flat_map]. rewrite nprint_loud. reflexivity. }
      rewrite L. destruct (c_show_tips c); cbn [andb]; [|left; auto].
      assert (Na : all = [] \/ (match all with [] => false | _ => true end = true /\ all <> [])) by (destruct all; [auto|right; split; [reflexivity|discriminate]]).
      destruct Na as [Na|[Nb Na]]; [rewrite Na; left; auto|]. rewrite Nb. right. split; [reflexivity|]. split; [exact Na|].
      unfold all. rewrite <- !app_assoc. reflexivity.
  Qed.

  Lemma block_shown (P : string -> Prop) b lines code : report c versions s = Ok (lines, code) ->
    (forall l, In l b -> P l) -> (forall l, P l -> In l b) -> (List.length b <= 1)%nat -> shown P b.
  Proof using. intros _ A B L. apply shown_In; [|exact L]. intros l. split; auto. Qed.

  Ltac elsewhere :=
    repeat match goal with
    | H : exists _, _ |- _ => destruct H
    | H : _ \/ _ |- _ => destruct H
    | H : _ /\ _ |- _ => destruct H
    end; subst; try discriminate.

  Hypothesis Ok_mins : report_ok (m_mins s).
  Hypothesis Rng : forall t, In t (c_targets c) -> in_range (snd t).

  Lemma report_whole : exists lines code, report c versions s = Ok (lines, code) /\ report_text c versions s lines /\
    (code = 0 \/ code = 1) /\ (code = 0 <-> passes c (m_mins s)).
  Proof using Nq Fm U Nd Kn Ok_mins Rng.
    assert (R := report_exact c versions s U Fm). eexists _, _. split; [exact R|].
    destruct Ok_mins as (W2 & W3 & _). assert (Tf := failed_passes c (m_mins s) W2 W3 Rng). split.
    2:{ destruct (targets_failed c (reqs_of (m_mins s))); split; auto; rewrite <- Tf; split; intros; congruence || discriminate || reflexivity. }
    exists (left_out_lines c s), (tips_lines c (reqs_of (m_mins s)) s), (min_lines c (m_mins s)), (note_lines c (m_mins s)), (inc_lines c (m_mins s)),
      (range_lines c versions s), (failed_lines c s).
    assert (LI := lines_In c versions s _ _ U Fm R). assert (OI := only_in c versions s _ _ U Fm R).
    split; [rewrite <- !app_assoc; reflexivity|]. split; [|split; [apply tips_exact|]].
    { unfold left_out_lines. destruct (m_incomp s), (c_ignore_incomp c); cbn [andb negb]; rewrite ?nprint_loud; (apply shown_In; [|cbn; lia]); cbn; intuition congruence. }
    split; [|split; [|split; [|split]]].
    - apply (block_shown _ _ _ _ R).
      + intros l I. destruct (min_In c s l I) as (t & ->). exists t. split; [reflexivity|].
        apply (minimum_line c versions s _ _ U Fm Nq R Ok_mins t). apply LI. auto.
      + intros l (t & -> & H). apply (minimum_line c versions s _ _ U Fm Nq R Ok_mins t) in H. apply OI in H. elsewhere; auto.
      + unfold min_lines. destruct (m_mins s) as [[a|] [b|]]; rewrite ?nprint_loud; cbn; lia.
    - apply (block_shown _ _ _ _ R).
      + intros l I. assert (D : exists t, l = "Note: Not enough evidence to conclude it won't work with Python " +++ t +++ ".").
        { unfold note_lines in I. destruct (existsb _ _); [|destruct I]. apply nprint_In in I as [_ ->]. eauto. }
        destruct D as (t & ->). exists t. split; [reflexivity|].
        apply (note_line c versions s _ _ U Fm Nq R Ok_mins t). apply LI. auto.
      + intros l (t & -> & H). apply (note_line c versions s _ _ U Fm Nq R Ok_mins t) in H. apply OI in H. elsewhere; auto.
      + unfold note_lines. destruct (existsb _ _); rewrite ?nprint_loud; cbn; lia.
    - apply (block_shown _ _ _ _ R).
      + intros l I. assert (G : c_ignore_incomp c = false \/ m_mins s = (None, None)).
        { unfold inc_lines in I. destruct (c_ignore_incomp c); [|auto]. destruct (m_mins s) as [[a|] [b|]]; auto; destruct I. }
        destruct (inc_In c s l I) as (t & ->). exists t. split; [reflexivity|]. split; [|exact G].
        apply (incompatible_line c versions s _ _ U Fm Nq R G t). apply LI. auto 10.
      + intros l (t & -> & H & G). apply (incompatible_line c versions s _ _ U Fm Nq R G t) in H. apply OI in H. elsewhere; auto.
      + unfold inc_lines. destruct (_ && _); rewrite ?nprint_loud; cbn; lia.
    - unfold range_lines. destruct versions; cbn [andb]; [|apply shown_not; intros l (t & _ & H & _); discriminate].
      destruct (m_unique s) as [|v l] eqn:E; cbn [List.length Nat.ltb Nat.leb]; [apply shown_not; intros l (t & _ & _ & H); exact (listed_nil _ _ _ H)|].
      rewrite nprint_loud. assert (L := vs_listed 0 (v :: l) U ltac:(discriminate)). apply shown_line; [eauto|].
      intros l' (t & -> & _ & H). f_equal. exact (listed_one _ _ version_one _ _ _ H L).
    - unfold failed_lines. destruct (targets_failed c (reqs_of (m_mins s))) eqn:E.
      + rewrite nprint_loud. assert (Ne : c_targets c <> []) by (intros K; unfold targets_failed in E; rewrite K in E; discriminate E).
        assert (L := strs_listed 0 (c_targets c) Ne). assert (Ns : ~ passes c (m_mins s)) by (rewrite <- Tf; congruence).
        apply shown_line; [eauto|]. intros l' (t & -> & _ & H). f_equal. exact (listed_one _ _ target_one _ _ _ H L).
      + apply shown_not. intros l (t & _ & H & _). apply H, Tf. reflexivity.
  Qed.
End Report.

(** *** The beginning *)
Lemma parse_front cpus re_ok ef cwd cfg det args c c' ps v pr : parse cpus re_ok ef cwd cfg (Ok det) args c = Ok (c', OPaths ps v pr) ->
  c_format c' = FDefault ->
  shown (fun l => c_quiet c' = false /\ exists f, l = "Using detected config: " +++ f /\ found_config det args f) pr.
Proof.
  intros H Fm. destruct args as [|a r]; [discriminate H|]. unfold parse in H. cbv beta iota in H.
  assert (PS := preparse_spec re_ok ef cwd cfg (fun x => x) (a :: r) false None). destruct (preparse cwd (a :: r) false None) as [| | |nc ac]; try discriminate H.
  destruct PS as [Pn Pc]. cbv zeta in H.
  set (note := match ac with None => if nc then None else det | Some _ => None end) in *.
  assert (Fi : forall s, finish (a :: r) note s = (c', OPaths ps v pr) ->
    pr = match note with Some f => nprint c' ("Using detected config: " +++ f) | None => [] end).
  { intros s E. unfold finish in E. cbv zeta in E. destruct (_ && _) in E; [discriminate E|]. destruct (_ && _) in E; [discriminate E|].
    match type of E with (?x, _) = _ => set (c0 := x) in * end. injection E as E1 _ _ E3. rewrite E1, Fm in E3. cbn [fmt_eqb] in E3. symmetry. exact E3. }
  assert (Pr : pr = match note with Some f => nprint c' ("Using detected config: " +++ f) | None => [] end).
  { destruct nc, ac as [f|]; try discriminate H;
    repeat match type of H with
    | Ok (finish _ _ _) = _ => injection H as H; eapply Fi; exact H
    | match ?x with _ => _ end = _ => destruct x; try discriminate H
    end. }
  assert (Q : forall f, note = Some f <-> found_config det (a :: r) f).
  { intros f. unfold found_config, note. split.
    - destruct ac as [g|]; [discriminate|]. destruct nc; [discriminate|]. intros ->. split; [reflexivity|].
      destruct Pc as [[Nf _]|(fr & o & n & bk & _ & _ & _ & E)]; [|discriminate E]. split; [exact Nf|]. intros I. assert (false = true) by (apply Pn; auto). discriminate.
    - intros (-> & Nf & Nn). destruct Pc as [[_ ->]|(fr & o & n & bk & Io & E & _)].
      + destruct nc; [|reflexivity]. destruct (proj1 Pn eq_refl) as [K|K]; [discriminate K|contradiction].
      + exfalso. destruct Nf as [N1 N2]. rewrite E in N1, N2. destruct Io as [<-|[<-|[]]]; [apply N1|apply N2]; apply in_or_app; right; left; reflexivity. }
  rewrite Pr. unfold nprint. destruct note as [f|].
  - destruct (c_quiet c'); [apply shown_not; intros l [K _]; discriminate|].
    apply shown_line; [split; [reflexivity|]; exists f; split; [reflexivity|]; apply Q; reflexivity|].
    intros l (_ & g & -> & K). apply Q in K. injection K as ->. reflexivity.
  - apply shown_not. intros l (_ & g & _ & K). apply Q in K. discriminate.
Qed.

Lemma vprint_shown c x : shown (fun l => c_quiet c = false /\ 1 <= c_verbose c /\ l = x) (vprint c x).
Proof.
  unfold vprint, verbose_print. assert (V := Z.leb_le 1 (c_verbose c)). destruct (1 <=? c_verbose c), (c_quiet c); cbn [andb negb].
  all: apply shown_In; [|cbn; lia]; cbn; intros l; intuition (try congruence; try lia).
Qed.
Lemma print_app a b : print_lines (a ++ b) = print_lines a +++ print_lines b.
Proof.
  unfold print_lines. rewrite map_app. set (g := fun x => x +++ nl). induction a as [|x a IH]; cbn [map app]; [reflexivity|].
  change (sconcat (g x :: map g a ++ map g b)) with (g x +++ sconcat (map g a ++ map g b)). rewrite IH, <- app_assoc_s. reflexivity.
Qed.
Lemma local_loud c : c_quiet c = false -> local_config c = c.
Proof. intros Q. unfold local_config. rewrite Q, andb_false_r. reflexivity. Qed.
Lemma local_processes c : c_processes (local_config c) = c_processes c.
Proof. unfold local_config. destruct (_ && _); reflexivity. Qed.

Lemma main_whole w prog err_text fuel args det c paths versions printed files rs :
  w_detected w = Ok det ->
  parse (w_cpus w) (w_re_ok w) (w_excl_file w) (w_cwd w) (w_cfg_file w) (Ok det) args (default_config (w_cpus w)) = Ok (c, OPaths paths versions printed) ->
  c_format c = FDefault -> found_files w c fuel paths = Some (Ok files) -> files <> [] -> w_major w <> 2 ->
  let lc := local_config c in
  analysed (w_hooks w) (w_major w) lc (w_file w) (w_ending w) files rs -> toured rs -> 1 <= c_processes c ->
  (forall t, In t (c_targets c) -> in_range (snd t)) ->
  exists s front mid lines code, 
    snd (process (w_hooks w) (w_major w) lc (w_file w) (w_ending w) (c_processes lc) files) = Ok s /\
    whole_main w prog err_text fuel args =
      Some (print_lines (map err_text (unread (w_excl_file w) args)) +++ print_lines front +++ mid +++ print_lines lines, Ok code) /\
    front_lines c det args (List.length files) front /\ sections lc zero_mins rs mid /\
    (c_quiet c = true -> lines = []) /\ (c_quiet c = false -> report_text c versions s lines) /\
    (code = 0 \/ code = 1) /\ (code = 0 <-> passes c (m_mins s)).
Proof.
  intros D P Fm Ff NE Ma lc A T N Rng.
  assert (Np : 1 <= c_processes lc) by (unfold lc; rewrite local_processes; exact N).
  assert (Fl : c_format lc = FDefault) by (unfold lc; rewrite set_quiet_format; exact Fm).
  destruct (process_ok _ _ _ _ _ _ _ _ A T Np) as (a & E & R).
  destruct (summary_facts lc rs a R) as (Su & Un & Nd). set (s := summary_of a) in *.
  destruct (process_report_ok _ _ _ _ _ _ _ _ _ _ A T Np Ma E) as [Ro U].
  assert (Kn : Forall known_backport (m_bps s)).
  { apply Forall_forall. intros b I. apply (sum_bps _ _ Su) in I. exact (used_known _ _ _ _ _ _ _ b A I). }
  assert (Rp : exists lines code, report c versions s = Ok (lines, code) /\ (c_quiet c = true -> lines = []) /\ (c_quiet c = false -> report_text c versions s lines) /\
    (code = 0 \/ code = 1) /\ (code = 0 <-> passes c (m_mins s))).
  { destruct (c_quiet c) eqn:Q.
    - destruct (report_code c versions s U) as (lines & Rc). exists lines. eexists. split; [exact Rc|].
      split; [intros _; eapply report_quiet; eauto|]. split; [discriminate|]. destruct Ro as (W2 & W3 & _).
      rewrite <- (failed_passes c (m_mins s) W2 W3 Rng). destruct (targets_failed _ _); intuition (try discriminate; try congruence).
    - destruct (report_whole c versions s Q Fm U Nd Kn Ro Rng) as (lines & code & R1 & R2 & R3). exists lines, code. split; [exact R1|]. split; [discriminate|]. auto. }
  destruct Rp as (lines & code & Rp & R1 & R2 & R3 & R4).
  exists s, (printed ++ vprint c "Detecting python files.." ++ vprint c (working (List.length files) (c_processes c))), (a_out a), lines, code.
  split; [rewrite E; reflexivity|]. split; [|split; [|split; [|auto]]].
  - unfold whole_main, opening. assert (K := parse_cases (w_cpus w) (w_re_ok w) (w_excl_file w) (w_cwd w) (w_cfg_file w) err_text (w_detected w) args (default_config (w_cpus w))).
    rewrite D in K. rewrite D, P in *. rewrite K. cbn [bindr]. unfold main. rewrite D, P, Ff, Fm. cbn [fmt_eqb].
    unfold run_files. cbv zeta. rewrite Fm. cbn [fmt_eqb]. fold lc. rewrite E. destruct files as [|f fs]; [congruence|]. rewrite Rp. cbn [option_map fst snd].
    assert (Wk : "Analyzing" +++ (if (1 <? List.length (f :: fs))%nat then " " +++ nat_str (List.length (f :: fs)) +++ " files" else "") +++ " using " +++
      z_str (c_processes c) +++ " processes.." = working (List.length (f :: fs)) (c_processes c)).
    { unfold working. destruct fs as [|g fs]; reflexivity. }
    rewrite Wk. rewrite !print_app, !app_assoc_s. reflexivity.
  - exists printed, (vprint c "Detecting python files.."), (vprint c (working (List.length files) (c_processes c))). split; [reflexivity|].
    split; [exact (parse_front _ _ _ _ _ _ _ _ _ _ _ _ P Fm)|]. split; apply vprint_shown.
  - exact (process_sections _ _ _ _ _ _ _ _ _ _ A T Np Fl E).
Qed.
