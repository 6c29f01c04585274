(** The parsable output of a run is lines of six fields. Lemmas for C71. *)
From Verif Require Import PyBase PyLemmas Utility RulesData Rules Config Formats Paths AstKinds Ast State Visitor
  MinVersions Parser Detection Arguments Pool Processor Main Usage Messages Spec_Base Spec_Utility Spec_Rules Spec_Config
  Spec_Detection Spec_Formats Spec_MinVersions Spec_Main Spec_Explain Spec_Messages Spec_Reading
  Proof_Strings Proof_Utility Proof_Config Proof_Detection Proof_Formats Proof_MinVersions Proof_Explain Proof_Main
  Proof_Report Proof_Args Proof_Messages.

Lemma lines_text_app a : forall b, lines_text (a ++ b) = lines_text a +++ lines_text b.
Proof. induction a as [|x a IH]; intros b; cbn [app lines_text]; [reflexivity|]. rewrite IH, !app_assoc_s. reflexivity. Qed.
Lemma print_lines_text l : print_lines l = lines_text l.
Proof.
  unfold print_lines. induction l as [|x l IH]; [reflexivity|]. cbn [map lines_text]. rewrite <- IH. cbn [sconcat].
  rewrite app_assoc_s. reflexivity.
Qed.

Lemma finding_parsable p msg l c m : no_char ":" p -> no_char (ascii_of_nat 10) p -> finding_line p (parsable_line msg p l c m).
Proof.
  intros A B. destruct (parsable_read msg p l c m A B) as [N R]. split; [exact N|].
  exists (opt_str "" l), (opt_str "" c), (fst (vers_of m)), (snd (vers_of m)), (escape_nl msg). apply R.
  split; [reflexivity|]. split; [apply opt_str_shows|]. split; [apply opt_str_shows|]. split; [apply vers_of_shows|apply escape_escaped].
Qed.
Lemma result_parsable p m : no_char ":" p -> no_char (ascii_of_nat 10) p -> result_line p m (parsable_line "" p None None (Some m)).
Proof.
  intros A B. destruct (parsable_read "" p None None (Some m) A B) as [N R]. split; [exact N|].
  exists (opt_ver_str 2 (fst m)), (opt_ver_str 3 (snd m)). split; [|split; apply opt_ver_str_writes].
  apply R. split; [reflexivity|]. split; [constructor|]. split; [constructor|]. split; [split; apply opt_ver_str_writes|constructor].
Qed.
Lemma result_inj p m p' m' line : result_line p m line -> result_line p' m' line -> m = m'.
Proof.
  intros (_ & a & b & F & A & B) (_ & a' & b' & F' & A' & B'). destruct (fields_fun _ _ _ _ _ _ _ _ _ _ _ _ _ F F') as (_ & _ & _ & -> & -> & _).
  destruct m as [m2 m3], m' as [m2' m3']. cbn [fst snd] in *. rewrite (writes_inj _ _ _ _ A A'), (writes_inj _ _ _ _ B B'). reflexivity.
Qed.

(** *** One file *)
Section File.
  Variables (h : hooks) (major : Z) (c : config) (file : string -> fcontent).

  Lemma text_cases p how r m : snd (process_individual h major c p (file p) how) = Ok (Some r) -> r_mins r = MVers m ->
    (r_text r = "" /\ exists source ps printed, file p = FcSource source ps /\ parser_detect major c ps = DVerdict m printed) \/
    (exists t, fails major c file p (PeOther t)) \/
    (exists source ps node nov e s s', file p = FcSource source ps /\ parser_detect major c ps = DTree node nov /\
       make_visitor h c p source nov = Ok e /\ tour e node = Ok s /\ minimum_versions e s = Ok (m, s') /\ r_text r = output_text e s').
  Proof.
    intros H M. unfold process_individual in H.
    assert (X : forall x, snd (@nil string, match x with
       | PeSyntax _ => Ok None
       | PeInterrupt => Ok (Some (mkRes p MNone "" [] [] false))
       | PeValue | PeType => Ok None
       | PeOther t => Ok (Some (mkRes p (MVers zero_mins) (p +++ ": " +++ t) [] [] false)) end) = Ok (Some r) -> exists t, x = PeOther t).
    { intros x K. destruct x; cbn [snd] in K; try discriminate; injection K as <-; [discriminate M|]. eauto. }
    assert (Y : match how with EndAbort => False | _ => True end) by (destruct how; auto; discriminate).
    destruct (file p) as [x|source ps] eqn:F.
    - right; left. assert (K : exists t, x = PeOther t) by (destruct how; try contradiction; eapply X; eauto).
      destruct K as (t & ->). exists t. constructor. exact F.
    - destruct (parser_detect major c ps) as [node nov|m' printed|x] eqn:P.
      + right; right. assert (Q : mapr Some (process_tree h c p source node nov how) = Ok (Some r)) by (destruct how; try contradiction; exact H).
        unfold process_tree, bindr, mapr in Q. destruct (make_visitor h c p source nov) as [e|] eqn:V; [|discriminate].
        destruct how; try contradiction.
        * destruct (tour e node) as [s|] eqn:T; [|discriminate].
          destruct (minimum_versions e s) as [[m' s']|x] eqn:N.
          -- injection Q as <-. cbn [r_mins] in M. injection M as ->. exists source, ps, node, nov, e, s, s'. auto 10.
          -- destruct x; try discriminate. injection Q as <-. discriminate.
        * injection Q as <-. discriminate.
        * discriminate.
      + left. assert (Q : Some (mkRes p (MVers m') "" [] [] false) = Some r) by (destruct how; try contradiction; cbn [snd] in H; congruence).
        injection Q as <-. split; [reflexivity|]. exists source, ps, printed. split; auto. cbn [r_mins] in M. injection M as <-. auto.
      + right; left. assert (K : exists t, x = PeOther t) by (destruct how; try contradiction; eapply X; eauto).
        destruct K as (t & ->). exists t. eapply fails_parse; eauto.
  Qed.
  Lemma result_path p how r : snd (process_individual h major c p (file p) how) = Ok (Some r) -> r_path r = p.
  Proof.
    intros H. unfold process_individual in H.
    assert (Y : match how with EndAbort => False | _ => True end) by (destruct how; auto; discriminate).
    assert (X : forall x, snd (@nil string, match x with
       | PeSyntax _ => Ok None
       | PeInterrupt => Ok (Some (mkRes p MNone "" [] [] false))
       | PeValue | PeType => Ok None
       | PeOther t => Ok (Some (mkRes p (MVers zero_mins) (p +++ ": " +++ t) [] [] false)) end) = Ok (Some r) -> r_path r = p).
    { intros x K. destruct x; cbn [snd] in K; try discriminate; injection K as <-; reflexivity. }
    destruct (file p) as [x|source ps]; [apply (X x); destruct how; try contradiction; exact H|].
    destruct (parser_detect major c ps) as [node nov|m' printed|x].
    - assert (Q : mapr Some (process_tree h c p source node nov how) = Ok (Some r)) by (destruct how; try contradiction; exact H).
      unfold process_tree, bindr, mapr in Q. destruct (make_visitor h c p source nov) as [e|]; [|discriminate].
      destruct how; try contradiction.
      + destruct (tour e node) as [s|]; [|discriminate]. destruct (minimum_versions e s) as [[m' s']|x].
        * injection Q as <-. reflexivity.
        * destruct x; try discriminate. injection Q as <-. reflexivity.
      + injection Q as <-. reflexivity.
      + discriminate.
    - destruct how; try contradiction; cbn [snd] in H; injection H as <-; reflexivity.
    - apply (X x); destruct how; try contradiction; exact H.
  Qed.
  Lemma visitor_path p source nov e : make_visitor h c p source nov = Ok e -> e_path e = p.
  Proof. unfold make_visitor, py_assert. destruct (path_ok c p); [|discriminate]. intros E. injection E as <-. reflexivity. Qed.

  Hypothesis Fm : c_format c = FParsable.
  Hypothesis Nv : c_print_visits c = false.

  Lemma file_findings p how r m : no_char ":" p -> no_char (ascii_of_nat 10) p -> (forall t, ~ fails major c file p (PeOther t)) ->
    snd (process_individual h major c p (file p) how) = Ok (Some r) -> r_mins r = MVers m ->
    exists ls, r_text r = lines_text ls /\ Forall (finding_line p) ls /\
      forall source ps node nov e s, file p = FcSource source ps -> parser_detect major c ps = DTree node nov ->
        make_visitor h c p source nov = Ok e -> tour e node = Ok s -> ~ In FLongV2 (s_flags s) ->
        3 <= c_verbose c -> c_only_show_violations c = false -> is_join_of (read_off ls) m.
  Proof.
    intros A B U H M. destruct (text_cases p how r m H M) as [(T & source & ps & pr & F & D)|[(t & K)|(source & ps & node & nov & e & s & s' & F & D & V & T & N & X)]].
    - exists []. split; [exact T|]. split; [constructor|]. intros source' ps' node nov e s F' D' _ _ _ _ _. rewrite F in F'. injection F' as <- <-. congruence.
    - destruct (U t K).
    - destruct (make_visitor_cfg h c p source nov e V) as [C _]. assert (P := visitor_path p source nov e V).
      assert (NV : c_print_visits (e_cfg e) = false) by (rewrite C; exact Nv).
      destruct (output_lines_set e s' NV) as [_ O].
      assert (L : forall l, In l (s_out s') -> finding_line p l).
      { intros l I. assert (Q : exists ro, tells_of e ro l).
        { destruct (only_told e node s m s' T N NV l I) as [Q|(ro & _ & Q)]; eauto. }
        destruct Q as (ro & msg & ln & cl & pl & ->). unfold format_output_line. rewrite C, Fm, P. apply finding_parsable; assumption. }
      exists (output_lines e s'). split; [|split].
      + rewrite X. apply output_text_lines. intros l I. destruct (L l I) as (_ & l0 & c0 & v2 & v3 & f & (-> & _)). destruct p; discriminate.
      + apply Forall_forall. intros l I. apply L, O, I.
      + intros source' ps' node' nov' e0 s0 F' D' V' T' NL Vb OV. rewrite F in F'. injection F' as <- <-. rewrite D in D'. injection D' as <- <-.
        rewrite V in V'. injection V' as <-. rewrite T in T'. injection T' as <-.
        apply (read_join e node s m s' T N); rewrite ?P, ?C; assumption.
  Qed.

  (** *** All files *)
  Hypothesis Ig : c_ignore_incomp c = true.
  Variable how : string -> ending.

  Lemma loop_out : forall paths rs a, analysed h major c file how paths rs -> toured rs ->
    (forall p, In p paths -> no_char ":" p /\ no_char (ascii_of_nat 10) p /\ forall t, ~ fails major c file p (PeOther t)) ->
    exists a' blocks, agg_loop c (map Ok rs) a = (a', None) /\ blocks_of c paths rs blocks /\
      a_out a' = a_out a +++ lines_text (List.concat blocks).
  Proof.
    intros paths rs a A. revert a. induction A as [|p x paths rs H A IH]; intros a T U.
    - exists a, []. split; [reflexivity|]. split; [constructor|]. cbn. rewrite app_nil_s. reflexivity.
    - destruct (U p (or_introl eq_refl)) as (U1 & U2 & U3).
      assert (S : exists a1 b, agg_step c x a = Ok a1 /\ about c p x b /\ a_out a1 = a_out a +++ lines_text b).
      { destruct x as [r|].
        2: { exists a, []. split; [reflexivity|]. split; [constructor|]. cbn. rewrite app_nil_s. reflexivity. }
        cbn [agg_step]. assert (R := result_path p (how p) r H). assert (NE := T r (or_introl eq_refl)).
        destruct (r_mins r) as [| |m] eqn:M; [| congruence |].
        - eexists _, []. split; [reflexivity|]. split; [constructor; exact M|]. cbn [a_out]. unfold print_incomp. rewrite Ig. reflexivity.
        - destruct (file_findings p (how p) r m U1 U2 U3 H M) as (ls & X & L & _). rewrite combine2_cases, Ig. cbn [negb andb].
          destruct (negb (c_only_show_violations c) || negb (String.eqb (r_text r) "")) eqn:W.
          + eexists _, (ls ++ [parsable_line "" p None None (Some m)]). split; [reflexivity|].
            split; [apply (about_shown c p r m); auto; apply result_parsable; assumption|].
            cbn [a_out]. unfold output_result. rewrite Fm, R, X. unfold parsable_result. rewrite lines_text_app. cbn [lines_text].
            rewrite app_nil_s. reflexivity.
          + eexists _, []. split; [reflexivity|]. apply orb_false_iff in W as [W1 W2]. apply negb_false_iff in W1, W2. apply String.eqb_eq in W2.
            split; [apply (about_met c p r m); assumption|]. reflexivity. }
      destruct S as (a1 & b & S1 & S2 & S3). cbn [map agg_loop]. rewrite S1.
      destruct (IH a1) as (a' & blocks & L1 & L2 & L3).
      + intros r I. apply T. right. exact I.
      + intros q I. apply U. right. exact I.
      + exists a', (b :: blocks). split; [exact L1|]. split; [constructor; [exact S2|exact L2]|].
        rewrite L3, S3. cbn [List.concat]. rewrite lines_text_app, app_assoc_s. reflexivity.
  Qed.

  Lemma blocks_say : forall paths rs blocks, analysed h major c file how paths rs -> blocks_of c paths rs blocks -> c_only_show_violations c = false ->
    forall m, block_says blocks m <-> verdict_in rs m.
  Proof.
    intros paths rs blocks A B V m. unfold blocks_of in B.
    assert (K : forall paths rs blocks, List.length paths = List.length rs ->
      Forall2 (fun pr b => about c (fst pr) (snd pr) b) (combine paths rs) blocks -> block_says blocks m <-> verdict_in rs m).
    { clear - V. induction paths as [|p paths IH]; intros [|x rs] blocks E B; try discriminate E.
      - inversion B. subst. split; [intros (p & ls & l & [] & _)|intros (r & [] & _)].
      - cbn [combine] in B. inversion B as [|pr b l l' B1 B2 B3 B4]. subst. specialize (IH rs l' (f_equal pred E) B2).
        assert (Q : verdict_in (x :: rs) m <-> (exists r, x = Some r /\ r_mins r = MVers m) \/ verdict_in rs m).
        { split.
          - intros (r & [I|I] & M); [left; eauto|right; exists r; split; assumption].
          - intros [(r & -> & M)|(r & I & M)]; exists r; (split; [|exact M]); [left; reflexivity|right; exact I]. }
        rewrite Q, <- IH. split.
        + intros (p' & ls & line & [I|I] & R); [left|right; exists p', ls, line; auto]. subst b. cbn [fst snd] in B1.
          inversion B1 as [E1|r M E1|r n W|r n ls' line' M T F R' E1 E2]; try (destruct ls; discriminate); subst; try congruence.
          apply app_inj_tail in E2 as [-> ->]. exists r. split; [reflexivity|]. rewrite (result_inj _ _ _ _ _ R R'). exact M.
        + intros [(r & -> & M)|(p' & ls & line & I & R)].
          * cbn [fst snd] in B1. inversion B1 as [|r' M' E1|r' n W|r' n ls' line' M' T F R' E1 E2]; subst; try congruence.
            rewrite M in M'. injection M' as <-. exists p, ls', line'. split; [left; reflexivity|exact R'].
          * exists p', ls, line. split; [right; exact I|exact R]. }
    apply (K paths rs blocks); [|exact B]. clear - A. induction A; cbn [List.length]; congruence.
  Qed.

  Lemma process_readable n paths rs : analysed h major c file how paths rs -> toured rs -> 1 <= n ->
    (forall p, In p paths -> no_char ":" p /\ no_char (ascii_of_nat 10) p /\ forall t, ~ fails major c file p (PeOther t)) ->
    exists blocks s, process h major c file how n paths = (lines_text (List.concat blocks), Ok s) /\ blocks_of c paths rs blocks /\
      is_join_of (verdict_in rs) (m_mins s).
  Proof.
    intros A T N U. destruct (loop_out paths rs agg_init A T U) as (a & blocks & L1 & L2 & L3).
    exists blocks, (summary_of a). unfold process. rewrite (analysed_map _ _ _ _ _ _ _ A), run_results_ok by exact N. rewrite L1.
    destruct (agg_loop_ok c rs agg_init T) as (a' & E & R). rewrite L1 in E. injection E as <-.
    split; [cbn [agg_init a_out] in L3; rewrite L3; reflexivity|]. split; [exact L2|].
    apply (mins_join c rs a R). left. exact Ig.
  Qed.
End File.

Lemma join_same (P Q : mins -> Prop) m : (forall x, P x <-> Q x) -> is_join_of P m -> is_join_of Q m.
Proof. intros E J. eapply join_of_ext; [|exact J]. exact E. Qed.

Lemma report_parsable c s : c_format c = FParsable -> c_ignore_incomp c = true -> c_show_tips c = false ->
  exists code, report c false s = Ok ([parsable_line "" "" None None (Some (m_mins s))], code).
Proof.
  intros F I T. unfold report. cbv zeta. rewrite F. cbn [fmt_eqb negb andb bindr]. rewrite I. cbn [negb].
  rewrite !andb_false_r. cbn [andb bindr]. unfold tips_lines. cbv zeta. rewrite T. cbn [andb app].
  destruct (targets_failed c (reqs_of (m_mins s))); eauto.
Qed.

Lemma local_same c : c_format (local_config c) = c_format c /\ c_ignore_incomp (local_config c) = c_ignore_incomp c /\
  c_print_visits (local_config c) = c_print_visits c /\ c_only_show_violations (local_config c) = c_only_show_violations c /\
  c_processes (local_config c) = c_processes c.
Proof. unfold local_config. destruct (_ && _); repeat split. Qed.

Lemma about_local c p r b : about (local_config c) p r b -> about c p r b.
Proof.
  intros A. destruct (local_same c) as (_ & _ & _ & V & _). 
  inversion A as [|r' M|r' m O M T|r' m ls line M T F R]; subst.
  - constructor.
  - apply about_incompatible. exact M.
  - apply (about_met c p r' m); [rewrite <- V; exact O|exact M|exact T].
  - apply (about_shown c p r' m); assumption.
Qed.

(** *** The run *)
Lemma run_readable w c files rs : let lc := local_config c in
  analysed (w_hooks w) (w_major w) lc (w_file w) (w_ending w) files rs -> toured rs -> 1 <= c_processes c -> files <> [] ->
  c_format c = FParsable -> c_ignore_incomp c = true -> c_show_tips c = false -> c_print_visits c = false ->
  (forall p, In p files -> no_char ":" p /\ no_char (ascii_of_nat 10) p) ->
  (forall p t, In p files -> ~ fails (w_major w) lc (w_file w) p (PeOther t)) ->
  exists s out code, snd (process (w_hooks w) (w_major w) lc (w_file w) (w_ending w) (c_processes lc) files) = Ok s /\
    run_files w c false files = (out, Ok code) /\ readable c files rs (m_mins s) out.
Proof.
  intros lc A T N NE F I St V P U. destruct (local_same c) as (L1 & L2 & L3 & L4 & L5). fold lc in L1, L2, L3, L4, L5.
  assert (PR : forall p, In p files -> no_char ":" p /\ no_char (ascii_of_nat 10) p /\ forall t, ~ fails (w_major w) lc (w_file w) p (PeOther t)).
  { intros p Hp. destruct (P p Hp) as [P1 P2]. split; [exact P1|]. split; [exact P2|]. intros t. exact (U p t Hp). }
  assert (N' : 1 <= c_processes lc) by (rewrite L5; exact N).
  destruct (process_readable (w_hooks w) (w_major w) lc (w_file w) (eq_trans L1 F) (eq_trans L3 V) (eq_trans L2 I) (w_ending w) (c_processes lc)
              files rs A T N' PR) as (blocks & s & E & B & J).
  destruct (report_parsable c s F I St) as (code & R).
  exists s, (lines_text (List.concat blocks ++ [parsable_line "" "" None None (Some (m_mins s))])), code.
  split; [rewrite E; reflexivity|]. split.
  - unfold run_files. cbv zeta. fold lc. destruct files as [|f fs]; [congruence|]. rewrite E, R, F. cbn [fmt_eqb].
    rewrite !print_lines_text, lines_text_app. reflexivity.
  - exists blocks, (parsable_line "" "" None None (Some (m_mins s))). split; [reflexivity|].
    assert (B' : blocks_of c files rs blocks).
    { unfold blocks_of in *. clear - B. induction B; constructor; auto. apply about_local. assumption. }
    split; [exact B'|]. split; [apply result_parsable; apply no_char_nil|].
    intros OV. eapply join_same; [|exact J]. intros m. symmetry. apply (blocks_say (w_hooks w) (w_major w) lc (w_file w) (w_ending w) files rs blocks A B). congruence.
Qed.

(** *** Paths without the separators *)
Lemma split_keeps ch sep : forall s, no_char ch s -> Forall (no_char ch) (split_char sep s).
Proof.
  unfold split_char. induction s as [|x s IH]; intros N; cbn [split_on].
  - constructor; [apply no_char_nil|constructor].
  - assert (N1 : no_char ch s) by (intros a b ->; apply (N (String x a) b); reflexivity). specialize (IH N1).
    assert (Nx : x <> ch) by (intros ->; apply (N "" s); reflexivity).
    destruct (Ascii.eqb sep x); [constructor; [apply no_char_nil|exact IH]|].
    destruct (split_on (Ascii.eqb sep) s) as [|a l].
    + constructor; [|constructor]. intros u v E. destruct u as [|y u]; injection E as E1 E2; [congruence|destruct u; discriminate].
    + inversion IH as [|a' l' H1 H2]. subst. constructor; [|exact H2].
      intros u v E. destruct u as [|y u]; injection E as E1 E2; [congruence|]. exact (H1 u v E2).
Qed.
Lemma norm_keeps (P : string -> Prop) ab : forall comps acc, Forall P comps -> Forall P acc -> Forall P (norm_comps ab acc comps).
Proof.
  induction comps as [|x comps IH]; intros acc C A; cbn [norm_comps]; [apply Forall_rev; exact A|].
  inversion C as [|x' l' C1 C2]. subst. destruct (_ || _); [apply IH; assumption|].
  destruct (_ || _); apply IH; auto. destruct A; auto. constructor.
Qed.
Lemma join_keeps ch sep : no_char ch sep -> forall l, Forall (no_char ch) l -> no_char ch (join sep l).
Proof.
  intros S. induction l as [|x [|y l] IH]; intros F.
  - apply no_char_nil.
  - inversion F. assumption.
  - inversion F as [|x' l' F1 F2]. subst. change (join sep (x :: y :: l)) with (x +++ sep +++ join sep (y :: l)).
    apply no_char_app. split; [exact F1|]. apply no_char_app. split; [exact S|]. apply IH, F2.
Qed.
Lemma normpath_keeps ch p : ch <> "/"%char -> ch <> "."%char -> no_char ch p -> no_char ch (normpath p).
Proof.
  intros S D N. unfold normpath.
  assert (Dot : no_char ch ".") by (intros [|x [|y a]] b E; injection E; try discriminate; congruence).
  assert (Sl : no_char ch "/") by (intros [|x [|y a]] b E; injection E; try discriminate; congruence).
  destruct (String.eqb p ""); [exact Dot|]. cbv zeta. destruct (String.eqb _ ""); [exact Dot|]. apply no_char_app. split.
  - destruct (_ && _); [change "//" with ("/" +++ "/"); apply no_char_app; auto|]. destruct (startswith "/" p); [exact Sl|apply no_char_nil].
  - apply join_keeps; [exact Sl|]. apply norm_keeps; [apply split_keeps; exact N|constructor].
Qed.

Lemma found_clean w c fuel paths l : isabs (w_cwd w) = true -> c_format c = FParsable -> found_files w c fuel paths = Some (Ok l) ->
  forall p, In p l -> no_char ":" p /\ no_char (ascii_of_nat 10) p.
Proof.
  intros Cw F H q Hq. unfold found_files in H.
  destruct (detect_paths (w_fs w) (w_cwd w) (w_search w) c (c_analyze_hidden c) (ignore_chars_of c) (c_scan_symlink_folders c) fuel
              (input_paths w c paths)) as [[l0|x]|] eqn:D; try discriminate. cbn [option_map mapr] in H. injection H as <-.
  apply isort_In in Hq. rewrite dedup_In in Hq. apply (detect_ok _ _ _ _ _ _ _ _ _ _ D) in Hq as (d & p & L & (O & _) & _ & -> & _).
  unfold ignore_chars_of in O. rewrite F in O. cbn [fmt_eqb] in O.
  assert (N : forall ch, In (String ch "") [":"; nl] -> no_char ch p).
  { intros ch I a b E. apply (O _ I). exists a, b. exact E. }
  assert (N1 := N ":"%char (or_introl eq_refl)). assert (N2 := N (ascii_of_nat 10) (or_intror (or_introl eq_refl))).
  unfold actual. destruct (c_make_paths_absolute c) eqn:Ab; [|split; assumption].
  assert (A : isabs p = true).
  { inversion L as [p' I E1 E2|d' p' names n L' _ _ _ _ _ _ E1 E2]; subst.
    - unfold input_paths in I. rewrite Ab in I. apply in_map_iff in I as (x & <- & _). destruct (abspath_abs (w_cwd w) x Cw) as (r & E). rewrite E. reflexivity.
    - unfold actual. rewrite Ab. destruct (abspath_abs (w_cwd w) p' Cw) as (r & E). unfold path_join. destruct (isabs n) eqn:En; [exact En|].
      rewrite E. destruct (_ || _); reflexivity. }
  unfold abspath. rewrite A. split; apply normpath_keeps; auto; discriminate.
Qed.

(** *** The whole program *)
Lemma parsable_finish cpus re_ok ef cwd cfg det args c c' ps v pr : parse cpus re_ok ef cwd cfg det args c = Ok (c', OPaths ps v pr) ->
  c_format c' = FParsable -> v = false /\ pr = [].
Proof.
  intros H F. assert (K : forall note s, finish args note s = (c', OPaths ps v pr) -> v = false /\ pr = []).
  { intros note s E. unfold finish in E. cbv zeta in E. destruct (_ && _) in E; [discriminate|].
    destruct (_ && _) in E; [discriminate|].
    match type of E with (?x, _) = _ => set (c0 := x) in * end. injection E as E1 _ E2 E3. rewrite E1, F in E2, E3. cbn [fmt_eqb] in E2, E3.
    split; [auto|]. destruct note; auto. }
  unfold parse in H. destruct args as [|a r]; [discriminate|]. destruct det as [det|]; [|discriminate].
  destruct (preparse cwd (a :: r) false None) as [| | |nc ac]; try discriminate.
  assert (L : forall c0 note, match parse_loop cpus re_ok ef (a :: r) (mkP c0 0 false None) with
                 | SGo s => Ok (finish (a :: r) note s) | SFail => Ok (c0, OCode 1) | SRaise e => Err e end
                 = Ok (c', OPaths ps v pr) -> v = false /\ pr = []).
  { intros c0 note E. destruct (parse_loop cpus re_ok ef (a :: r) (mkP c0 0 false None)) as [s| |e]; try discriminate. injection E as E. eapply K, E. }
  destruct nc, ac as [f|]; try discriminate.
  - eapply L, H.
  - destruct (parse_file cpus re_ok (cfg f)); [|discriminate]. eapply L, H.
  - destruct det as [f|]; [destruct (parse_file cpus re_ok (cfg f)); [|discriminate]|]; eapply L, H.
Qed.

Lemma main_readable w prog err_text fuel args c paths versions printed files rs :
  parse (w_cpus w) (w_re_ok w) (w_excl_file w) (w_cwd w) (w_cfg_file w) (w_detected w) args (default_config (w_cpus w))
    = Ok (c, OPaths paths versions printed) ->
  In "--format" args \/ In "-f" args -> c_format c = FParsable -> c_print_visits c = false ->
  unread (w_excl_file w) args = [] -> isabs (w_cwd w) = true ->
  found_files w c fuel paths = Some (Ok files) -> files <> [] ->
  let lc := local_config c in
  analysed (w_hooks w) (w_major w) lc (w_file w) (w_ending w) files rs -> toured rs -> 1 <= c_processes c ->
  (forall p t, In p files -> ~ fails (w_major w) lc (w_file w) p (PeOther t)) ->
  exists s out code, snd (process (w_hooks w) (w_major w) lc (w_file w) (w_ending w) (c_processes lc) files) = Ok s /\
    whole_main w prog err_text fuel args = Some (out, Ok code) /\ readable c files rs (m_mins s) out.
Proof.
  intros P Fa F V Un Cw Ff NE lc A T N U.
  destruct (format_argument_settings _ _ _ _ _ _ _ _ _ _ _ _ P Fa F) as (_ & I & St).
  assert (Vp : versions = false /\ printed = []) by (eapply parsable_finish; eauto). destruct Vp as [-> ->].
  destruct (run_readable w c files rs A T N NE F I St V (found_clean w c fuel paths files Cw F Ff) U) as (s & out & code & E1 & E2 & R).
  exists s, out, code. split; [exact E1|]. split; [|exact R].
  unfold whole_main, opening. assert (K := parse_cases (w_cpus w) (w_re_ok w) (w_excl_file w) (w_cwd w) (w_cfg_file w) err_text (w_detected w) args (default_config (w_cpus w))).
  rewrite P in K. rewrite K, Un. cbn [bindr map]. rewrite P. unfold main. rewrite P, Ff, F, E2. cbn [fmt_eqb option_map fst snd].
  reflexivity.
Qed.

(** *** Lines that workers print themselves *)
Lemma syntax_readable major c p se : c_format c = FParsable -> se_filename se = p -> no_char ":" p -> no_char (ascii_of_nat 10) p ->
  no_char ":" (se_lineno se) -> no_char (ascii_of_nat 10) (se_lineno se) -> no_char ":" (se_offset se) -> no_char (ascii_of_nat 10) (se_offset se) ->
  no_char (ascii_of_nat 10) (se_msg se) ->
  forall l, In l (snd (syntax_verdict major c se)) ->
  no_char (ascii_of_nat 10) l /\ exists v2 v3 f, fields l p (se_lineno se) (se_offset se) v2 v3 f /\
    writes 2 (fst (fst (syntax_verdict major c se))) v2 /\ writes 3 (snd (fst (syntax_verdict major c se))) v3.
Proof.
  intros F <- P1 P2 L1 L2 O1 O2 M l.
  assert (X : no_char (ascii_of_nat 10) (escape_nl (match se_text se with Some t => strip t | None => "" end))).
  { eapply escaped_no_nl. apply escape_escaped. }
  assert (G : forall v2 v3 f, no_char ":" v2 -> no_char ":" v3 -> no_char (ascii_of_nat 10) v2 -> no_char (ascii_of_nat 10) v3 ->
    no_char (ascii_of_nat 10) f ->
    let t := se_filename se +++ ":" +++ se_lineno se +++ ":" +++ se_offset se +++ ":" +++ v2 +++ ":" +++ v3 +++ ":" +++ f in
    no_char (ascii_of_nat 10) t /\ fields t (se_filename se) (se_lineno se) (se_offset se) v2 v3 f).
  { intros v2 v3 f A B C D E t. assert (Co : no_char (ascii_of_nat 10) ":") by (apply no_char_spec; reflexivity). split.
    - unfold t. repeat (apply no_char_app; split); assumption.
    - unfold fields. repeat split; assumption. }
  assert (W : forall n o, no_char ":" (opt_ver_str n o) /\ no_char (ascii_of_nat 10) (opt_ver_str n o)).
  { intros n o. assert (K := writes_version n o _ (opt_ver_str_writes n o)). split; (apply version_char_no; [reflexivity|exact K]). }
  assert (H : forall m f, no_char (ascii_of_nat 10) f ->
    l = (se_filename se +++ ":" +++ se_lineno se +++ ":" +++ se_offset se +++ ":") +++ (mins_str ":" m +++ ":") +++ f ->
    no_char (ascii_of_nat 10) l /\ exists v2 v3 f, fields l (se_filename se) (se_lineno se) (se_offset se) v2 v3 f /\
      writes 2 (fst m) v2 /\ writes 3 (snd m) v3).
  { intros m f Nf ->. unfold mins_str. rewrite !app_assoc_s. destruct (W 2 (fst m)) as [W1 W2], (W 3 (snd m)) as [W3 W4].
    destruct (G _ _ f W1 W3 W2 W4 Nf) as [G1 G2]. split; [exact G1|]. exists (opt_ver_str 2 (fst m)), (opt_ver_str 3 (snd m)), f.
    split; [exact G2|]. split; apply opt_ver_str_writes. }
  assert (Pr : forall x, In l (vvprint c x) -> l = x).
  { intros x. unfold vvprint, verbose_print. destruct (_ && _); [intros [<-|[]]; reflexivity|intros []]. }
  unfold syntax_verdict. rewrite F. cbn [fmt_eqb]. cbv zeta.
  set (text := escape_nl _) in *. clearbody text.
  destruct (contains _ _); [|destruct (_ && _)]; cbn [fst snd]; intros I; apply Pr in I.
  - apply (H (Some (2, 0), None) ("info: `" +++ text +++ "` requires 2.0")).
    + repeat (apply no_char_app; split); try assumption; apply no_char_spec; reflexivity.
    + rewrite I. reflexivity.
  - apply (H (None, Some (3, 12)) ("info: type alias statement `" +++ text +++ "` requires !2, 3.12")).
    + repeat (apply no_char_app; split); try assumption; apply no_char_spec; reflexivity.
    + rewrite I. reflexivity.
  - match type of I with context [mins_str ":" ?m] => apply (H m ("error: " +++ se_msg se +++ ": " +++ text)) end; [|exact I].
    repeat (apply no_char_app; split); try assumption; apply no_char_spec; reflexivity.
Qed.
