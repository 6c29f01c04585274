(** When a run in violations mode fails. Lemmas for C82. *)
From Verif Require Import PyBase PyLemmas Utility RulesData Rules Config Formats Paths AstKinds Ast State Visitor MinVersions Parser Detection Arguments
  Processor Main Spec_Base Spec_Utility Spec_Rules Spec_Formats Spec_Visitor Spec_MinVersions Spec_Explain Spec_Main Spec_Targets Spec_Failing
  Proof_Utility Proof_Rules Proof_Formats Proof_MinVersions Proof_Claims Proof_Explain Proof_Main Proof_Targets.
From Coq Require Import Lia Permutation.

Definition decidedb (m : mins) : bool :=
  match m with
  | (Some a, Some b) => Bool.eqb (veqb a (0, 0)) (veqb b (0, 0))
  | (Some a, None) => negb (veqb a (0, 0))
  | (None, Some b) => negb (veqb b (0, 0))
  | (None, None) => true
  end.
Lemma decidedb_ok m : decidedb m = true -> decided m.
Proof.
  destruct m as [[a|] [b|]]; cbn [decidedb]; intros H.
  - destruct (veqb a (0, 0)) eqn:A, (veqb b (0, 0)) eqn:B; try discriminate.
    + apply veqb_eq in A, B. subst. left. reflexivity.
    + right. split; cbn; intros K; injection K as ->; discriminate.
  - right. split; cbn; [|discriminate]. intros K; injection K as ->. discriminate.
  - right. split; cbn; [discriminate|]. intros K; injection K as ->. discriminate.
  - right. split; discriminate.
Qed.

Definition table_dec {K} (l : list (K * reqx)) : bool := forallb (fun kr => forallb decidedb (leaves (snd kr))) l.
Lemma table_dec_ok {K} (l : list (K * reqx)) k x bps : table_dec l = true -> In (k, x) l -> decided (req_eval bps x).
Proof.
  intros H I. unfold table_dec in H. rewrite forallb_forall in H. specialize (H _ I). cbn [snd] in H.
  rewrite forallb_forall in H. apply decidedb_ok, H, req_eval_leaf.
Qed.
Lemma small_tables_decided m :
  In m (map snd strftime_reqs ++ map snd bytes_reqs ++ map snd array_typecode_reqs ++
        map snd codecs_error_handlers_reqs ++ map snd decorator_user_functions ++ map snd codecs_encodings_reqs) -> decided m.
Proof. intros H. apply decidedb_ok. revert m H. apply forallb_forall. vm_compute. reflexivity. Qed.
Lemma mod_decided : table_dec mod_reqs_x = true. Proof. vm_compute. reflexivity. Qed.
Lemma mem_decided : table_dec mod_mem_reqs_x = true. Proof. vm_compute. reflexivity. Qed.
Lemma kwarg_decided : table_dec kwargs_reqs_x = true. Proof. vm_compute. reflexivity. Qed.

Lemma triggered_decided bps s m : ~ In FPrintV2 (s_flags s) -> triggered bps s m -> decided m.
Proof.
  assert (T := small_tables_decided).
  intros N H. destruct H as [f m I D|d m I J|d m I J|d m I J|n m I J|n k m I J E|n m I J|n m I J|f k m I J|n m I J].
  - destruct D; try (contradiction (N I)); apply decidedb_ok; reflexivity.
  - apply T. apply in_app_iff. left. apply in_map_iff. exists (d, m). auto.
  - apply T. rewrite !in_app_iff. right. left. apply in_map_iff. exists (d, m). auto.
  - apply T. rewrite !in_app_iff. do 2 right. left. apply in_map_iff. exists (d, m). auto.
  - apply T. rewrite !in_app_iff. do 3 right. left. apply in_map_iff. exists (n, m). auto.
  - apply T. rewrite !in_app_iff. do 5 right. apply in_map_iff. exists (k, m). auto.
  - unfold mod_req in J. destruct (assoc n mod_reqs_x) as [x|] eqn:A; [|discriminate]. injection J as <-.
    apply assoc_In in A. exact (table_dec_ok _ _ _ _ mod_decided A).
  - unfold mem_req in J. destruct (assoc n mod_mem_reqs_x) as [x|] eqn:A; [|discriminate]. injection J as <-.
    apply assoc_In in A. exact (table_dec_ok _ _ _ _ mem_decided A).
  - unfold kwarg_req in J. destruct (assoc2 (f, k) kwargs_reqs_x) as [x|] eqn:A; [|discriminate]. injection J as <-.
    apply assoc2_In in A. exact (table_dec_ok _ _ _ _ kwarg_decided A).
  - apply T. rewrite !in_app_iff. do 4 right. left. apply in_map_iff. exists (n, m). auto.
Qed.

(** No print statement is in a tree of Python 3. *)
Lemma no_print e v s : tour e v = Ok s -> ~ In FPrintV2 (s_flags s).
Proof.
  intros T I. assert (P := tour_present _ _ _ _ T I). inversion P as [f n B S|]; subst.
  inversion S as [f n' Q| | |]; subst. inversion Q.
Qed.

Definition sound (m : mins) : Prop := decided m /\ wf_part 2 (fst m) /\ wf_part 3 (snd m).
Lemma sound_zero : sound zero_mins.
Proof. split; [left; reflexivity|]. split; left; reflexivity. Qed.
Lemma wf_small n o : 2 <= n -> wf_part n o -> req_le o (Some (0, 0)) -> o = Some (0, 0).
Proof.
  intros L W R. destruct o as [[a b]|]; [|destruct R]. destruct W as [W|[W _]]; [rewrite W; reflexivity|].
  cbn in W. unfold req_le, ver_le in R. cbn in R. lia.
Qed.
Lemma join_decided (P : mins -> Prop) m : (forall r, P r -> sound r) -> is_join_of P m -> decided m.
Proof.
  intros S (Z & U & L).
  assert (Q : fst m = Some (0, 0) \/ snd m = Some (0, 0) -> m = zero_mins).
  { intros K. assert (A : forall r, P r -> r = zero_mins).
    { intros r R. destruct (S r R) as (D & W2 & W3). destruct (U r R) as [L2 L3]. destruct D as [D|[D2 D3]]; [exact D|]. exfalso.
      destruct K as [K|K].
      - rewrite K in L2. apply D2. exact (wf_small 2 _ ltac:(lia) W2 L2).
      - rewrite K in L3. apply D3. exact (wf_small 3 _ ltac:(lia) W3 L3). }
    apply mins_le_antisym; [|exact Z]. apply L; [apply mins_le_refl|]. intros r R. rewrite (A r R). apply mins_le_refl. }
  assert (Dc : forall o : option ver, {o = Some (0, 0)} + {o <> Some (0, 0)}) by (repeat decide equality).
  destruct (Dc (fst m)) as [K|K]; [left; auto|]. destruct (Dc (snd m)) as [K'|K']; [left; auto|]. right. auto.
Qed.

(** *** Targets *)
Lemma scope_major ts x t : targets_in_scope ts -> In (x, t) ts -> fst t = 2 \/ fst t = 3.
Proof.
  intros [(b & t1 & -> & K)|(b & t1 & b' & t2 & -> & K & K')] I; cbn in I.
  - destruct I as [I|[]]. injection I as _ <-. exact K.
  - destruct I as [I|[I|[]]]; injection I as _ <-; auto.
Qed.
Lemma scope_single ts : targets_in_scope ts -> one_per_major (fun t : target => fst (snd t)) ts /\ ts <> [].
Proof.
  intros [(b & t1 & -> & K)|(b & t1 & b' & t2 & -> & K & K')]; (split; [|discriminate]); unfold one_per_major; cbn.
  - repeat constructor. intros [].
  - rewrite K, K'. repeat constructor; cbn; intuition lia.
Qed.
Lemma above_zero t : fst t = 2 \/ fst t = 3 -> ~ above zero_mins t.
Proof. intros K A. unfold above, zero_mins in A. destruct (fst t =? 2); cbn in A; unfold ver_lt in A; cbn in A; lia. Qed.

(** A verdict that is decided passes upper bounds unless it is above one. *)
Lemma passes_below c m : c_only_show_violations c = true -> targets_in_scope (c_targets c) -> upper_bounds c -> sound m ->
  (passes c m <-> ~ above_some c m).
Proof.
  intros OV TS UB (D & W2 & W3). destruct (scope_single _ TS) as [One N]. rewrite (passes_success c m One). split.
  - intros [K|[K|[_ ((v & R) & K)]]]; [contradiction| |].
    + intros (x & t & I & A). assert (M := scope_major _ _ _ TS I). destruct (K _ I) as (v & R & F & O). cbn [fst snd] in F, O.
      rewrite (UB _ _ I) in O. unfold above in A. destruct M as [M|M]; rewrite M in A; cbn in A.
      * assert (E : fst m = Some v).
        { destruct R as [R|R]; [exact R|]. rewrite R in W3. destruct W3 as [->|[W _]]; cbn in F; lia. }
        rewrite E in A. unfold ver_lt, ver_le in *. lia.
      * assert (E : snd m = Some v).
        { destruct R as [R|R]; [|exact R]. rewrite R in W2. destruct W2 as [->|[W _]]; cbn in F; lia. }
        rewrite E in A. unfold ver_lt, ver_le in *. lia.
    + intros (x & t & I & A). destruct D as [->|[D2 D3]]; [exact (above_zero t (scope_major _ _ _ TS I) A)|].
      rewrite (K v R) in R. destruct R; contradiction.
  - intros A. destruct D as [->|[D2 D3]].
    + right. right. split; [exact OV|]. split; [exists (0, 0); left; reflexivity|]. intros v [R|R]; cbn in R; congruence.
    + right. left. intros [x t] I. assert (B : ~ above m t) by (intros B; apply A; exists x, t; auto).
      assert (M := scope_major _ _ _ TS I). assert (X := UB _ _ I). subst x. unfold above in B. destruct M as [M|M]; rewrite M in B; cbn in B.
      * destruct (fst m) as [v|] eqn:E; [|contradiction B; exact Logic.I]. exists v. split; [left; exact E|].
        destruct W2 as [->|[W _]]; [contradiction|]. split; cbn [fst snd]; [lia|]. unfold ver_lt, ver_le in *. lia.
      * destruct (snd m) as [v|] eqn:E; [|contradiction B; exact Logic.I]. exists v. split; [right; exact E|].
        destruct W3 as [->|[W _]]; [contradiction|]. split; cbn [fst snd]; [lia|]. unfold ver_lt, ver_le in *. lia.
Qed.

(** A join is above a target if something joined is. *)
Lemma above_dec m t : {above m t} + {~ above m t}.
Proof.
  unfold above. destruct (if fst t =? 2 then fst m else snd m) as [v|]; [|left; exact Logic.I].
  destruct (Z_lt_dec (fst t) (fst v)) as [A|A]; [left; left; exact A|].
  destruct (Z.eq_dec (fst t) (fst v)) as [B|B]; [|right; unfold ver_lt; lia].
  destruct (Z_lt_dec (snd t) (snd v)) as [C|C]; [left; right; auto|right; unfold ver_lt; lia].
Qed.
Lemma join_above (l : list mins) (P : mins -> Prop) m t : (forall r, In r l <-> P r) -> is_join_of P m -> fst t = 2 \/ fst t = 3 ->
  (above m t <-> exists r, P r /\ above r t).
Proof.
  intros E (Z & U & L) K. split.
  - intros A. destruct (Exists_dec (fun r => above r t) l (fun r => above_dec r t)) as [X|X].
    + apply Exists_exists in X as (r & I & B). exists r. split; [apply E; exact I|exact B].
    + exfalso. assert (B : forall r, P r -> ~ above r t) by (intros r R B; apply X, Exists_exists; exists r; split; [apply E; exact R|exact B]).
      assert (Bz := above_zero t K).
      assert (H : mins_le m (if fst t =? 2 then (Some t, None) else (None, Some t))).
      { assert (G : forall r, ~ above r t -> mins_le r (if fst t =? 2 then (Some t, None) else (None, Some t))).
        { intros r N. unfold above in N. destruct (fst t =? 2); split; cbn; [|destruct (snd r); exact Logic.I|destruct (fst r); exact Logic.I|].
          - destruct (fst r) as [v|]; [|contradiction N; exact Logic.I]. unfold req_le, ver_le, ver_lt in *. lia.
          - destruct (snd r) as [v|]; [|contradiction N; exact Logic.I]. unfold req_le, ver_le, ver_lt in *. lia. }
        apply L; [apply G, Bz|]. intros r R. apply G, B, R. }
      assert (V := above_mono _ _ _ H A). unfold above in V. destruct (fst t =? 2); cbn in V; unfold ver_lt in V; lia.
  - intros (r & R & A). exact (above_mono _ _ _ (U r R) A).
Qed.

(** *** One file *)
Lemma lines_In e s l : In l (output_lines e s) <-> In l (s_out s).
Proof.
  destruct (c_print_visits (e_cfg e)) eqn:V; [|apply output_lines_set; exact V].
  assert (P := output_lines_dump e s V). split; intros I; [|apply Permutation_sym in P]; exact (Permutation_in _ P I).
Qed.
Lemma explained_lines e s r : explained e (output_lines e s) r <-> explained e (s_out s) r.
Proof. unfold explained. split; intros (l & I & K); exists l; (split; [|exact K]); [apply (lines_In e s) in I|apply (lines_In e s)]; exact I. Qed.

Section File.
  Variables (h : hooks) (major : Z) (c : config) (file : string -> fcontent).
  Lemma verdict_printed ps m printed : c_quiet c = false -> 3 <= c_verbose c -> parser_detect major c ps = DVerdict m printed ->
    exists line rest, printed = line :: rest.
  Proof.
    intros Q V H.
    assert (E : forall x, match x with PeSyntax se => let (m, out) := syntax_verdict major c se in DVerdict m out | x => DExn x end = DVerdict m printed ->
      exists line rest, printed = line :: rest).
    { intros x. destruct x; try discriminate. destruct (syntax_verdict major c se) as [m' o] eqn:S. intros K. injection K as <- <-.
      assert (B : (2 <=? c_verbose c) && negb (c_quiet c) = true) by (rewrite Q; apply andb_true_iff; split; [apply Z.leb_le; lia|reflexivity]).
      unfold syntax_verdict, vvprint, verbose_print in S. rewrite B in S.
      destruct (contains _ _); [injection S as _ <-; eauto|]. destruct (_ && _); injection S as _ <-; eauto. }
    unfold parser_detect in H. destruct ps as [x|node toks]; [eauto|].
    destruct (c_parse_comments c); [|discriminate]. destruct toks; [eauto | discriminate].
  Qed.

  Lemma file_sound p how r m : major <> 2 -> c_pessimistic c = false ->
    snd (process_individual h major c p (file p) how) = Ok (Some r) -> r_mins r = MVers m -> sound m.
  Proof.
    intros M2 Pe H M. destruct (result_wf _ _ _ _ _ _ _ _ H M) as (W2 & W3 & _). split; [|auto].
    destruct (result_cases _ _ _ _ _ _ _ _ H M) as [(source & ps & printed & F & P)|[(x & F & ->)|(source & ps & node & nov & e & s & s' & F & P & V & T & N)]].
    - destruct (detect_verdict _ _ _ _ _ P) as [se ->]. clear -Pe. unfold syntax_verdict. rewrite Pe.
      destruct (contains _ _); [right; split; discriminate|]. destruct (_ && _); [right; split; discriminate|]. left. reflexivity.
    - left. reflexivity.
    - refine (join_decided _ _ _ (join_of _ _ _ _ N)). intros q R.
      assert (D := triggered_decided _ _ _ (no_print _ _ _ T) R). split; [exact D|].
      destruct (triggered_wf _ _ _ R) as [(A & B & _)|E]; [auto|]. subst q. cbn. split; [right; cbn; lia|left; reflexivity].
  Qed.

  Lemma file_finding p how r m x t : c_quiet c = false -> 3 <= c_verbose c -> c_only_show_violations c = true ->
    targets_in_scope (c_targets c) -> no_long h major c file p ->
    snd (process_individual h major c p (file p) how) = Ok (Some r) -> r_mins r = MVers m -> In (x, t) (c_targets c) ->
    (above m t <-> exists q, finding h major c file p q /\ above q t).
  Proof.
    intros Q V3 OV TS NL H M I.
    destruct (result_cases _ _ _ _ _ _ _ _ H M) as [(source & ps & printed & F & P)|[(y & F & ->)|(source & ps & node & nov & e & s & s' & F & P & V & T & N)]].
    - destruct (verdict_printed _ _ _ Q V3 P) as (line & rest & ->). split.
      + intros A. exists m. split; [eapply fi_syntax; eauto|exact A].
      + intros (q & Fi & A). destruct Fi as [src tx node nov e s m0 s' q F' P' _ _ _ _ _|src tx q line' rest' F' P']; rewrite F in F'; injection F' as <- <-;
          rewrite P in P'; [discriminate|]. injection P' as <- _ _. exact A.
    - split; [intros A; contradiction (above_zero t (scope_major _ _ _ TS I) A)|]. intros (q & Fi & _). exfalso.
      destruct Fi as [src tx node nov e s m0 s' q F' P' _ _ _ _ _|src tx q line' rest' F' P']; destruct F as [y F|src0 tx0 y F P]; rewrite F in F'; try discriminate;
        injection F' as -> ->; rewrite P in P'; discriminate.
    - assert (C := proj1 (make_visitor_cfg _ _ _ _ _ _ V)). subst c.
      assert (Ou : outspoken (e_cfg e)) by (split; [right; exact Q|exact V3]).
      rewrite (violations_told e node s m s' T N Ou OV TS (NL _ _ _ _ _ _ F P V T) x t I). split.
      + intros (q & A & R & X). exists q. split; [|exact A]. eapply fi_rule; eauto. apply explained_lines. exact X.
      + intros (q & Fi & A). exists q. split; [exact A|].
        destruct Fi as [src tx node' nov' e' s0 m0 s0' q F' P' V' T' N' R X|src tx q line' rest' F' P']; rewrite F in F'; injection F' as <- <-;
          rewrite P in P'; [|discriminate].
        injection P' as <- <-. rewrite V in V'. injection V' as <-. rewrite T in T'. injection T' as <-. rewrite N in N'. injection N' as <- <-.
        split; [exact R|]. apply explained_lines. exact X.
  Qed.

  (** What is found is counted. *)
  Lemma finding_counted p how r q : snd (process_individual h major c p (file p) how) = Ok r ->
    (forall x, r = Some x -> r_mins x <> MEmpty) -> finding h major c file p q -> exists x m, r = Some x /\ r_mins x = MVers m.
  Proof.
    intros H T Fi. unfold process_individual in H.
    destruct Fi as [src tx node nov e s m s' q F P V To N _ _|src tx q line rest F P]; rewrite F, P in H.
    - unfold process_tree in H. rewrite V in H. cbn [bindr] in H. destruct how; cbn [snd mapr] in H; try discriminate H.
      + rewrite To in H. cbn [bindr] in H. rewrite N in H. injection H as <-. do 2 eexists. split; reflexivity.
      + injection H as <-. contradiction (T _ eq_refl eq_refl).
    - destruct how; cbn [snd] in H; try discriminate H; injection H as <-; do 2 eexists; split; reflexivity.
  Qed.

  (** All files. *)
  Lemma files_finding how paths rs n out s : c_quiet c = false -> 3 <= c_verbose c -> c_only_show_violations c = true ->
    targets_in_scope (c_targets c) -> upper_bounds c -> c_pessimistic c = false -> major <> 2 -> 1 <= n ->
    analysed h major c file how paths rs -> toured rs -> combinable c rs -> (forall p, In p paths -> no_long h major c file p) ->
    process h major c file how n paths = (out, Ok s) ->
    sound (m_mins s) /\ (above_some c (m_mins s) <-> exists p q, In p paths /\ finding h major c file p q /\ above_some c q).
  Proof.
    intros Q V3 OV TS UB Pe M2 N A T C NL Pr.
    destruct (process_ok _ _ _ _ _ _ _ _ A T N) as (a & E & R). rewrite E in Pr. injection Pr as _ <-.
    destruct (mins_join c rs a R C) as [J _]. destruct (analysed_In _ _ _ _ _ _ _ A) as [A1 A2].
    assert (S : forall m, verdict_in rs m -> sound m).
    { intros m (r & I & M). destruct (A1 _ I) as (p & Ip & H). exact (file_sound p (how p) r m M2 Pe H M). }
    assert (W : sound (m_mins (summary_of a))).
    { split; [exact (join_decided _ _ S J)|]. destruct (process_report_ok _ _ _ _ _ _ _ _ _ _ A T N M2 E) as [(W2 & W3 & _) _]. auto. }
    split; [exact W|]. split.
    - intros (x & t & I & Ab). assert (K := scope_major _ _ _ TS I).
      apply (join_above _ _ _ _ (vlist_In rs) J K) in Ab as (m & (r & Ir & M) & Ab). destruct (A1 _ Ir) as (p & Ip & H).
      apply (file_finding p (how p) r m x t Q V3 OV TS (NL _ Ip) H M I) in Ab as (q & Fi & Ab). exists p, q.
      split; [exact Ip|]. split; [exact Fi|]. exists x, t. auto.
    - intros (p & q & Ip & Fi & x & t & I & Ab). exists x, t. split; [exact I|]. assert (K := scope_major _ _ _ TS I).
      apply (join_above _ _ _ _ (vlist_In rs) J K). destruct (A2 _ Ip) as (r & Ir & H).
      destruct (finding_counted p (how p) r q H) as (y & m & -> & M); [intros y ->; exact (T _ Ir)|exact Fi|].
      exists m. split; [exists y; split; assumption|].
      apply (file_finding p (how p) y m x t Q V3 OV TS (NL _ Ip) H M I). exists q. auto.
  Qed.
End File.

(** *** Silence *)
Lemma s_app_nil a b : a +++ b = "" -> a = "" /\ b = "".
Proof. destruct a; [auto|discriminate]. Qed.
Lemma join_nonempty sep l x : In x l -> x <> "" -> join sep l <> "".
Proof.
  induction l as [|y [|z l] IH]; intros I N E; [destruct I|destruct I as [<-|[]]; exact (N E)|].
  change (y +++ sep +++ join sep (z :: l) = "") in E. apply s_app_nil in E as [E1 E2]. apply s_app_nil in E2 as [_ E2].
  destruct I as [<-|I]; [exact (N E1)|exact (IH I N E2)].
Qed.
Lemma line_nonempty e r line : tells_of e (Some r) line -> line <> "".
Proof.
  intros (msg & l & co & pl & ->) E. unfold format_output_line in E. destruct (c_format (e_cfg e)).
  - unfold default_line in E. apply s_app_nil in E as [_ E]. apply s_app_nil in E as [_ E]. discriminate E.
  - unfold parsable_line in E. apply s_app_nil in E as [_ E]. apply s_app_nil in E as [E _]. discriminate E.
Qed.
Lemma explained_text e s r : explained e (output_lines e s) r -> output_text e s <> "".
Proof.
  intros (l & I & T) E. unfold output_text in E. cbv zeta in E. assert (N := join_nonempty nl _ _ I (line_nonempty _ _ _ T)).
  destruct (String.eqb (join nl (output_lines e s)) "") eqn:Q; [contradiction|]. apply s_app_nil in E as [E _]. contradiction.
Qed.
Lemma step_out c x a a' : agg_step c x a = Ok a' -> exists t, a_out a' = a_out a +++ t /\
  (forall r m, x = Some r -> r_mins r = MVers m -> r_text r <> "" -> c_quiet c = false -> 1 <= c_verbose c -> t <> "").
Proof.
  intros E. destruct x as [r|]; cbn [agg_step] in E.
  - destruct (r_mins r) as [| |m] eqn:M.
    + injection E as <-. eexists. split; [reflexivity|]. intros r' m' K. injection K as <-. rewrite M. discriminate.
    + discriminate E.
    + cbv zeta in E.
      assert (S : r_text r <> "" -> c_quiet c = false -> 1 <= c_verbose c ->
                  (if negb (c_only_show_violations c) || negb (String.eqb (r_text r) "") then output_result c m (r_path r) (r_text r) else "") <> "").
      { intros N Q V. apply String.eqb_neq in N. rewrite N. cbn [negb]. rewrite orb_true_r. unfold output_result. destruct (c_format c).
        - unfold default_result, vprint, verbose_print. rewrite Q. replace (1 <=? c_verbose c) with true by (symmetry; apply Z.leb_le; lia). cbn [negb andb].
          unfold print_lines. cbn [map sconcat]. intros K. apply s_app_nil in K as [K _]. apply s_app_nil in K as [_ K]. discriminate K.
        - unfold parsable_result. intros K. apply s_app_nil in K as [_ K]. apply s_app_nil in K as [_ K]. discriminate K. }
      destruct (combine2 (c_ignore_incomp c) None (a_mins a) m) as [m'|y]; [|destruct y; try discriminate E];
        injection E as <-; cbn [a_out]; eexists; (split; [reflexivity|]); intros r' m0 K _ N Q V; injection K as <-; specialize (S N Q V).
      * exact S.
      * intros K. apply s_app_nil in K as [K _]. contradiction.
  - injection E as <-. exists "". split; [symmetry; apply app_nil_s|]. discriminate.
Qed.
Lemma loop_out c rs : forall a a', agg_loop c (map Ok rs) a = (a', None) -> a_out a' = "" -> a_out a = "" /\
  forall r m, In (Some r) rs -> r_mins r = MVers m -> c_quiet c = false -> 1 <= c_verbose c -> r_text r = "".
Proof.
  induction rs as [|x rs IH]; intros a a' E O; cbn [map agg_loop] in E.
  - injection E as <-. split; [exact O|]. intros r m [].
  - destruct (agg_step c x a) as [a1|] eqn:S; [|discriminate]. destruct (IH _ _ E O) as [O1 R]. destruct (step_out _ _ _ _ S) as (t & T & N).
    rewrite T in O1. apply s_app_nil in O1 as [O1 Ot]. split; [exact O1|]. intros r m [->|I] M Q V; [|exact (R r m I M Q V)].
    destruct (String.eqb (r_text r) "") eqn:Et; [apply String.eqb_eq; exact Et|]. apply String.eqb_neq in Et. contradiction (N r m eq_refl M Et Q V).
Qed.

Lemma silent_no_finding h major c file how n paths rs s : c_quiet c = false -> 1 <= c_verbose c -> 1 <= n ->
  analysed h major c file how paths rs -> toured rs -> process h major c file how n paths = ("", Ok s) ->
  (forall p, In p paths -> fst (process_individual h major c p (file p) (how p)) = []) ->
  forall p q, In p paths -> ~ finding h major c file p q.
Proof.
  intros Q V N A T P W p q I Fi. unfold process in P. rewrite (analysed_map _ _ _ _ _ _ _ A), run_results_ok in P by auto.
  destruct (agg_loop_ok c rs agg_init T) as (a & E & _). rewrite E in P. injection P as O _.
  destruct (loop_out _ _ _ _ E O) as [_ R]. destruct (analysed_In _ _ _ _ _ _ _ A) as [_ A2]. destruct (A2 _ I) as (r & Ir & H).
  destruct (finding_counted h major c file p (how p) r q H) as (y & m & -> & M); [intros y ->; exact (T _ Ir)|exact Fi|].
  specialize (R y m Ir M Q V). specialize (W _ I). unfold process_individual in H, W.
  destruct Fi as [src tx node nov e s0 m0 s' q F Pd Vi To Mv _ X|src tx q line rest F Pd]; rewrite F, Pd in H, W.
  - unfold process_tree in H. rewrite Vi in H. cbn [bindr] in H. destruct (how p); cbn [snd mapr] in H; try discriminate H.
    + rewrite To in H. cbn [bindr] in H. rewrite Mv in H. injection H as <-. exact (explained_text _ _ _ X R).
    + injection H as <-. discriminate M.
  - destruct (how p); cbn [snd fst] in H, W; try discriminate H; discriminate W.
Qed.
