(** Verdicts of analyses with more exclusions, fewer features and more backports. Lemmas for C66, C67. *)
From Verif Require Import PyBase PyLemmas Utility RulesData Rules Config Formats Paths AstKinds Ast State Visitor MinVersions
  Parser Processor Spec_Base Spec_Utility Spec_Visitor Spec_MinVersions Spec_Main Spec_Same Spec_Fewer Proof_Utility Proof_Rules Proof_MinVersions
  Proof_Formats Proof_Main Proof_Fewer.

Lemma encoding_raises v : (forall n, v <> VStr n) -> exists x, In (SRaise x) (encoding_steps v).
Proof.
  intros N. unfold encoding_steps. destruct v as [ |b|z|s|s|s|s| |l|k u p fs]; try (exists AttributeError; vm_compute; left; reflexivity).
  - exfalso. exact (N s eq_refl).
  - exists TypeError. vm_compute. left. reflexivity.
Qed.
Lemma run_no_raise e l : forall m s r, run_steps e l m s = Ok r -> forall x, ~ In (SRaise x) l.
Proof.
  induction l as [|[v i ent|y] l IH]; intros m s r H x I; [destruct I| |discriminate].
  destruct I as [I|I]; [discriminate|]. cbn [run_steps] in H. destruct (add_versions e v i ent m s) as [[m1 s1]|]; [|discriminate].
  exact (IH _ _ _ H x I).
Qed.
Lemma ok_str_encodings e s m s' : minimum_versions e s = Ok (m, s') -> str_encodings s.
Proof.
  intros H v I. unfold minimum_versions in H. destruct (when _ _ s) as [s1|]; [|discriminate]. cbn [bindr] in H.
  assert (R := run_no_raise e _ _ _ _ H). destruct v as [ |b|z|n|n|n|n| |l|k u p fs]; try (exists n; reflexivity); exfalso;
  (match goal with I : In ?v _ |- _ => destruct (encoding_raises v) as (x & X); [discriminate|] end; apply (R x); unfold steps; rewrite !in_app_iff;
   do 5 right; left; apply in_flat_map; eexists; split; [exact I|exact X]).
Qed.

Lemma versions_keep e s m t : minimum_versions e s = Ok (m, t) -> s_modules t = s_modules s /\ s_flags t = s_flags s.
Proof.
  intros H. unfold minimum_versions, bindr in H. assert (Es : s = with_oi (s_out s) (s_info s) s) by (destruct s; reflexivity).
  assert (K : forall o i m', run_steps e (steps e s) m' (with_oi o i s) = Ok (m, t) -> s_modules t = s_modules s /\ s_flags t = s_flags s).
  { intros o i m' R. destruct (run_steps_again e s _ _ _ _ _ _ R) as (ls & f & -> & _). split; reflexivity. }
  destruct (has_flag s FPrintV3); cbn [when] in H; [|refine (K (s_out s) (s_info s) _ _); rewrite <- Es; exact H].
  destruct (print_again e 2 "print(expr)" None (Some (-1)) (Some (Some (2, 0), Some (3, 0))) None s) as [[x P]|[ls P]];
    specialize (P (s_out s) (s_info s)); rewrite <- Es in P; rewrite P in H; [discriminate|exact (K _ _ _ H)].
Qed.

(** ** Rules *)
Definition mono (bps bps' : list string) : Prop :=
  (forall b, In b bps -> In b bps') /\ (forall b t, b = "typing_extensions" +++ t -> In b bps' -> In b bps).
Lemma loop_same l d bps bps' : (forall x, In x l -> mem (bp_name x) bps' = mem (bp_name x) bps) -> bpv_loop l d bps' = bpv_loop l d bps.
Proof.
  induction l as [|x l IH]; intros E; [reflexivity|]. cbn [bpv_loop]. unfold bp. rewrite (E x (or_introl eq_refl)). destruct (mem (bp_name x) bps); [reflexivity|].
  apply IH. intros y I. apply E. right. exact I.
Qed.
Lemma extensions_same bps bps' : mono bps bps' -> mod_req bps' "typing_extensions" = mod_req bps "typing_extensions".
Proof.
  intros [A B]. unfold mod_req. assert (E : exists d, assoc "typing_extensions" mod_reqs_x = Some (RBpv "typing_extensions" d)) by (eexists; vm_compute; reflexivity).
  destruct E as (d & ->). cbn [option_map req_eval]. f_equal. unfold bpv. apply loop_same.
  assert (P : forall x, In x (expand_versions "typing_extensions") -> exists t, bp_name x = "typing_extensions" +++ t).
  { assert (Q : forallb (fun x => startswith "typing_extensions" (bp_name x)) (expand_versions "typing_extensions") = true) by (vm_compute; reflexivity).
    rewrite forallb_forall in Q. intros x I. apply Proof_Strings.startswith_iff, Q, I. }
  intros x I. destruct (P x I) as (t & Px). destruct (mem (bp_name x) bps) eqn:M.
  - apply mem_In, A, mem_In, M.
  - apply Bool.not_true_iff_false in M. apply Bool.not_true_iff_false. intros N. apply M, mem_In, (B _ t Px), mem_In, N.
Qed.
Lemma mins_le_refl m : mins_le m m.
Proof. split; apply req_le_refl. Qed.

Lemma triggered_less bps bps' lost s s' r' : mono bps bps' -> records_less lost s' s -> triggered bps' s' r' ->
  exists r, triggered bps s r /\ mins_le r' r.
Proof.
  intros B (A1 & A2 & A3 & A4 & A5 & A6 & A7 & A8 & A9 & A10 & _) T.
  assert (S : forall x, triggered bps s x -> exists r, triggered bps s r /\ mins_le x r) by (intros x X; exists x; split; [exact X|apply mins_le_refl]).
  destruct T as [f m I D|d m I J|d m I J|d m I J|n m I J|n k m I J E|n m I J|n m I J|f k m I J|n m I J].
  - apply S. eapply trig_feature; [apply A10, I|exact D].
  - rewrite A7 in *. apply S. eapply trig_strftime; eauto.
  - rewrite A8 in *. apply S. eapply trig_bytes; eauto.
  - rewrite A9 in *. apply S. eapply trig_typecode; eauto.
  - apply S. eapply trig_handler; eauto.
  - apply S. eapply trig_encoding; eauto.
  - destruct (String.eqb n "typing_extensions") eqn:N.
    + apply String.eqb_eq in N as ->. apply S. eapply trig_module; [apply A1, I|]. rewrite <- (extensions_same bps bps' B). exact J.
    + apply String.eqb_neq in N. assert (Q : exists r, mod_req bps n = Some r) by (unfold mod_req in *; destruct (assoc n mod_reqs_x); [eexists; reflexivity|discriminate]).
      destruct Q as (r & Q). exists r. split; [eapply trig_module; [apply A1, I|exact Q]|]. exact (mod_req_mono bps bps' n r m N (proj1 B) Q J).
  - assert (Q : exists r, mem_req bps n = Some r) by (unfold mem_req in *; destruct (assoc n mod_mem_reqs_x); [eexists; reflexivity|discriminate]).
    destruct Q as (r & Q). exists r. split; [eapply trig_member; [apply A2, I|exact Q]|]. exact (mem_req_mono bps bps' n r m (proj1 B) Q J).
  - rewrite A3 in *. assert (Q : exists r, kwarg_req bps (f, k) = Some r) by (unfold kwarg_req in *; destruct (assoc2 (f, k) kwargs_reqs_x); [eexists; reflexivity|discriminate]).
    destruct Q as (r & Q). exists r. split; [eapply trig_kwarg; [exact I|exact Q]|]. exact (kwarg_req_mono bps bps' (f, k) r m (proj1 B) Q J).
  - apply S. eapply trig_deco; eauto.
Qed.
Lemma triggered_possible e s r : triggered (bps_of e) s r -> r <> (None, None).
Proof.
  intros T. destruct (triggered_wf e s r T) as [(_ & _ & C & _)| ->]; [|discriminate]. intros ->. destruct (C eq_refl) as (z & Q & _). discriminate.
Qed.

Lemma versions_less lost e e' s s' m t : c_ignore_incomp (e_cfg e) = c_ignore_incomp (e_cfg e') -> mono (bps_of e) (bps_of e') ->
  targets_given (e_cfg e) -> targets_given (e_cfg e') -> records_less lost s' s ->
  minimum_versions e s = Ok (m, t) -> exists m' t', minimum_versions e' s' = Ok (m', t') /\ mins_le m' m.
Proof.
  intros Ig Bp T T' L H. assert (S := ok_str_encodings e s m t H).
  assert (S' : str_encodings s') by (intros v I; apply S; apply L, I).
  assert (V : exists m' t', minimum_versions e' s' = Ok (m', t')).
  { destruct (c_ignore_incomp (e_cfg e')) eqn:I; [exact (ignored e' s' T' S' I)|].
    destruct (total e' s' T' S') as [V|V]; [exact V|exfalso]. apply (raises_iff e' s' T' S' I) in V as (a' & b' & A & B & K & K').
    destruct (triggered_less _ _ _ _ _ _ Bp L A) as (a & Ta & La), (triggered_less _ _ _ _ _ _ Bp L B) as (b & Tb & Lb).
    assert (X : exists msg, minimum_versions e s = Err (InvalidVersion msg)).
    { apply (raises_iff e s T S); [congruence|]. exists a, b. split; [exact Ta|]. split; [exact Tb|].
      apply triggered_possible in Ta, Tb. clear - La Lb K K' Ta Tb. destruct a as [a1 a2], b as [b1 b2], a' as [a1' a2'], b' as [b1' b2'].
      unfold py2_only, py3_only, mins_le in *. cbn [fst snd] in *. destruct La as [La1 La2], Lb as [Lb1 Lb2], K as [K1 K2], K' as [K3 K4]. subst.
      destruct a2; [contradiction La2|]. destruct b1; [contradiction Lb1|]. repeat split; intros ->; auto. }
    destruct X as (msg & X). congruence. }
  destruct V as (m' & t' & V). exists m', t'. split; [exact V|]. destruct (join_of e s m t H) as (Z & U & _).
  apply (join_of e' s' m' t' V); [exact Z|]. intros r R. destruct (triggered_less _ _ _ _ _ _ Bp L R) as (q & Q & Le).
  eapply mins_le_trans; [exact Le|exact (U q Q)].
Qed.

(** ** Visits *)
Definition on_request : list flag := [FLongV2; FUnionTypes; FFstringsSelfDoc].
Lemma tour_laxer h h' c c' path source nov e e' v s : laxer c c' -> targets_given c -> targets_given c' -> h_selfdoc h = h_selfdoc h' ->
  make_visitor h c path source nov = Ok e -> make_visitor h' c' path source nov = Ok e' -> tour e v = Ok s ->
  exists s', tour e' v = Ok s' /\ records_less on_request s' s.
Proof.
  intros M T T' Hs E E' H. unfold make_visitor, py_assert in *. destruct (path_ok c path); [|discriminate]. destruct (path_ok c' path); [|discriminate].
  injection E as <-. injection E' as <-. rewrite <- Hs.
  assert (F : fewr False on_request (tour (mkEnv c path (Some source) nov (h_selfdoc h) (h_dump h)) v) (tour (mkEnv c' path (Some source) nov (h_selfdoc h) (h_dump h')) v)).
  { apply tour_fewer; try assumption; [left; reflexivity|]. intros f _ _. split; [auto|]. split; [right; left; reflexivity|right; right; left; reflexivity]. }
  rewrite H in F. unfold fewr in F. match type of F with match ?t with _ => _ end => destruct t as [s'|] end; [|contradiction].
  exists s'. split; [reflexivity|]. eapply fewer_less; eauto.
Qed.
Lemma more_alike h h' c c' path source nov v : more_excluded c c' -> targets_given c -> targets_given c' ->
  fewr True [FLongV2] (tour (mkEnv c path (Some source) nov (h_selfdoc h) (h_dump h)) v) (tour (mkEnv c' path (Some source) nov (h_selfdoc h) (h_dump h')) v).
Proof.
  intros (M & F & _) T T'. apply tour_fewer; try assumption; [left; reflexivity|]. intros f I N. contradiction (N (F f I)).
Qed.
Lemma tour_less h h' c c' path source nov e e' v s : more_excluded c c' -> targets_given c -> targets_given c' -> h_selfdoc h = h_selfdoc h' ->
  make_visitor h c path source nov = Ok e -> make_visitor h' c' path source nov = Ok e' -> tour e v = Ok s ->
  exists s', tour e' v = Ok s' /\ records_less [FLongV2] s' s.
Proof.
  intros M T T' Hs E E' H. unfold make_visitor, py_assert in *. destruct (path_ok c path); [|discriminate]. destruct (path_ok c' path); [|discriminate].
  injection E as <-. injection E' as <-. rewrite <- Hs. pose proof (more_alike h h' c c' path source nov v M T T') as F.
  rewrite H in F. unfold fewr in F. match type of F with match ?t with _ => _ end => destruct t as [s'|] end; [|contradiction].
  exists s'. split; [reflexivity|]. eapply fewer_less; eauto.
Qed.
Lemma tour_fails h h' c c' path source nov e e' v x : more_excluded c c' -> targets_given c -> targets_given c' -> h_selfdoc h = h_selfdoc h' ->
  make_visitor h c path source nov = Ok e -> make_visitor h' c' path source nov = Ok e' -> tour e v = Err x -> tour e' v = Err x.
Proof.
  intros M T T' Hs E E' H. unfold make_visitor, py_assert in *. destruct (path_ok c path); [|discriminate]. destruct (path_ok c' path); [|discriminate].
  injection E as <-. injection E' as <-. rewrite <- Hs. pose proof (more_alike h h' c c' path source nov v M T T') as F.
  rewrite H in F. unfold fewr in F. match type of F with match ?t with _ => _ end => destruct t as [s'|y] end; [contradiction (F I)|]. rewrite (F I). reflexivity.
Qed.
Lemma more_laxer c c' : more_excluded_reading c c' -> laxer_reading c c'.
Proof.
  intros ((M & F & B) & S). split; [exact M|]. split; [|exact S]. unfold more_backports. rewrite B. split; auto.
Qed.

Section Run.
  Variables (h : hooks) (major : Z) (c c' : config) (file : string -> fcontent) (how : string -> ending).
  Hypothesis More : laxer_reading c c'.
  Hypothesis Targets : targets_given c.
  Hypothesis Targets' : targets_given c'.

  Definition less_hints (b a : presult) : Prop := incl (r_bps b) (r_bps a) /\ r_maybe b = r_maybe a /\ r_novermin b = r_novermin a.
  Definition lower_result (r r' : option presult) : Prop :=
    match r, r' with
    | None, None => True
    | Some a, Some b => (exists m m', r_mins a = MVers m /\ r_mins b = MVers m' /\ mins_le m' m) /\ less_hints b a
    | _, _ => False
    end.

  Lemma same_detect p : match parser_detect major c p, parser_detect major c' p with
    | DTree v n, DTree v' n' => v = v' /\ n = n' | DVerdict m _, DVerdict m' _ => m = m' | DExn x, DExn x' => x = x' | _, _ => False end.
  Proof.
    destruct More as (_ & _ & A & B & C). unfold parser_detect.
    assert (X : forall x, match (match x with PeSyntax se => let (m, out) := syntax_verdict major c se in DVerdict m out | _ => DExn x end),
        (match x with PeSyntax se => let (m, out) := syntax_verdict major c' se in DVerdict m out | _ => DExn x end) with
        | DTree v n, DTree v' n' => v = v' /\ n = n' | DVerdict m _, DVerdict m' _ => m = m' | DExn x, DExn x' => x = x' | _, _ => False end).
    { intros [se| | | |t]; try reflexivity. unfold syntax_verdict. rewrite <- B, <- C. destruct (contains _ _); [reflexivity|].
      destruct (_ && _); [reflexivity|]. reflexivity. }
    destruct p as [x|node toks]; [apply X|]. rewrite <- A. destruct (c_parse_comments c); [|auto]. destruct toks as [x|l]; [apply X|auto].
  Qed.

  Lemma tree_less path source v nov w a m : process_tree h c path source v nov w = Ok a -> r_mins a = MVers m ->
    exists b m', process_tree h c' path source v nov w = Ok b /\ r_mins b = MVers m' /\ mins_le m' m /\ less_hints b a.
  Proof.
    intros H R. unfold process_tree in *. destruct (make_visitor h c path source nov) as [e|] eqn:E; [|discriminate].
    assert (E' : exists e', make_visitor h c' path source nov = Ok e').
    { unfold make_visitor, path_ok, py_assert in *. destruct More as (_ & _ & _ & _ & <-). destruct (_ || _); [eauto|discriminate]. }
    destruct E' as (e' & E'). rewrite E'. cbn [bindr] in *.
    assert (K : (letr s := tour e v in match minimum_versions e s with Ok (m, s') =>
        Ok (mkRes path (MVers m) (output_text e s') nov (dedup (filter is_backport (s_modules s'))) (has_flag s' FMaybeAnnotations))
      | Err (InvalidVersion msg) => Ok (mkRes path MNone msg nov [] false) | Err x => Err x end) = Ok a ->
      exists b m', (letr s := tour e' v in match minimum_versions e' s with Ok (m, s') =>
        Ok (mkRes path (MVers m) (output_text e' s') nov (dedup (filter is_backport (s_modules s'))) (has_flag s' FMaybeAnnotations))
      | Err (InvalidVersion msg) => Ok (mkRes path MNone msg nov [] false) | Err x => Err x end) = Ok b /\ r_mins b = MVers m' /\ mins_le m' m /\ less_hints b a).
    { intros H'. destruct (tour e v) as [s|] eqn:To; [|discriminate]. cbn [bindr] in H'.
      destruct (tour_laxer h h c c' path source nov e e' v s (proj1 More) Targets Targets' eq_refl E E' To) as (s' & -> & L). cbn [bindr].
      destruct (minimum_versions e s) as [[m0 t]|x] eqn:V; [|destruct x; try discriminate; injection H' as <-; discriminate].
      injection H' as <-. cbn in R. injection R as ->.
      assert (C : e_cfg e = c /\ e_cfg e' = c') by (unfold make_visitor, py_assert in *; destruct (path_ok c path); [|discriminate];
        destruct (path_ok c' path); [|discriminate]; injection E as <-; injection E' as <-; auto). destruct C as [C C'].
      destruct (versions_less on_request e e' s s' m t) as (m' & t' & V' & Le); try (rewrite ?C, ?C'; assumption).
      - rewrite C, C'. apply More.
      - unfold bps_of. rewrite C, C'. apply More.
      - rewrite V'. eexists _, m'. split; [reflexivity|]. split; [reflexivity|]. split; [exact Le|].
        destruct (versions_keep _ _ _ _ V) as [K1 K2], (versions_keep _ _ _ _ V') as [K1' K2'].
        unfold less_hints. cbn [r_bps r_maybe r_novermin]. unfold has_flag. rewrite K1, K1', K2, K2'.
        destruct L as (L1 & _ & _ & _ & _ & _ & _ & _ & _ & L2 & L3). split; [|split; [|reflexivity]].
        + intros b I. rewrite dedup_In in I |- *. apply filter_In in I as [I J]. apply filter_In. split; [apply L1, I|exact J].
        + apply eq_true_iff_eq. rewrite !existsb_exists. split; intros (f & If & Ef); exists f; (split; [|exact Ef]); [apply L2, If|].
          apply L3; [exact If|]. apply flag_eqb_eq in Ef. subst f. intros J. cbn in J. intuition discriminate. }
    destruct w; try (exact (K H)); [injection H as <-; discriminate|discriminate].
  Qed.

  Lemma individual_less p r : snd (process_individual h major c p (file p) (how p)) = Ok r ->
    (forall a, r = Some a -> exists m, r_mins a = MVers m) ->
    exists r', snd (process_individual h major c' p (file p) (how p)) = Ok r' /\ lower_result r r'.
  Proof.
    intros H N. unfold process_individual in *.
    assert (S : forall x : res (option presult), x = Ok r -> exists r', x = Ok r' /\ lower_result r r').
    { intros x ->. exists r. split; [reflexivity|]. destruct r as [a|]; [|exact I]. destruct (N a eq_refl) as (m & M). split.
      - exists m, m. split; [exact M|]. split; [exact M|apply mins_le_refl].
      - split; [apply incl_refl|]. split; reflexivity. }
    destruct (how p); try discriminate;
    (destruct (file p) as [x|source ps]; [apply S, H|]; pose proof (same_detect ps) as D;
     destruct (parser_detect major c ps) as [v n|m o|x], (parser_detect major c' ps) as [v' n'|m' o'|x']; try contradiction;
     [destruct D as [<- <-]; cbn [snd] in *|subst m'; exact (S _ H)|subst x'; apply S, H]).
    all: match goal with H : mapr Some ?t = Ok _ |- _ => destruct t as [a|] eqn:P; [|discriminate] end; injection H as <-;
      destruct (N a eq_refl) as (m & M); destruct (tree_less _ _ _ _ _ _ _ P M) as (b & m' & -> & B & L & Hi); exists (Some b);
      split; [reflexivity|]; split; [exists m, m'; auto|exact Hi].
  Qed.

  Lemma results_less paths rs : analysed h major c file how paths rs -> (forall r, In (Some r) rs -> exists m, r_mins r = MVers m) ->
    exists rs', analysed h major c' file how paths rs' /\ Forall2 lower_result rs rs'.
  Proof.
    intros A. induction A as [|p r paths rs P A IH]; intros N; [exists []; split; constructor|].
    destruct (individual_less p r P) as (r' & R & L); [intros a ->; apply N; left; reflexivity|].
    destruct IH as (rs' & A' & F); [intros a I; apply N; right; exact I|]. exists (r' :: rs'). split; constructor; assumption.
  Qed.
  Lemma lower_in rs rs' : Forall2 lower_result rs rs' -> forall r', In (Some r') rs' -> exists m m', verdict_in rs m /\ r_mins r' = MVers m' /\ mins_le m' m.
  Proof.
    intros F. induction F as [|r r' rs rs' L F IH]; intros b I; [destruct I|]. destruct I as [->|I].
    - destruct r as [a|]; [|contradiction]. destruct L as ((m & m' & M & M' & Le) & _). exists m, m'. split; [|auto]. exists a. split; [left; reflexivity|exact M].
    - destruct (IH b I) as (m & m' & (a & Ia & M) & H). exists m, m'. split; [|exact H]. exists a. split; [right; exact Ia|exact M].
  Qed.

  Lemma lower_hints rs rs' : Forall2 lower_result rs rs' ->
    (forall r' m', counted rs' r' m' -> exists r m, counted rs r m /\ less_hints r' r) /\
    (forall r m, counted rs r m -> exists r' m', counted rs' r' m' /\ less_hints r' r).
  Proof.
    intros F. induction F as [|r r' rs rs' L F [IH1 IH2]]; [split; intros ? ? [[] _]|]. split.
    - intros b m' [[E|I] B].
      + subst r'. destruct r as [a|]; [|contradiction]. destruct L as ((m & m'' & M & M' & _) & Hi). exists a, m. split; [split; [left; reflexivity|exact M]|exact Hi].
      + destruct (IH1 b m' (conj I B)) as (a & m & [Ia A] & Hi). exists a, m. split; [split; [right; exact Ia|exact A]|exact Hi].
    - intros a m [[E|I] A].
      + subst r. destruct r' as [b|]; [|contradiction]. destruct L as ((m0 & m' & M & M' & _) & Hi). exists b, m'. split; [split; [left; reflexivity|exact M']|exact Hi].
      + destruct (IH2 a m (conj I A)) as (b & m' & [Ib B] & Hi). exists b, m'. split; [split; [right; exact Ib|exact B]|exact Hi].
  Qed.
  Lemma hints_less rs rs' s s' : Forall2 lower_result rs rs' -> summarises rs s -> summarises rs' s' ->
    incl (m_bps s') (m_bps s) /\ m_maybe s' = m_maybe s /\ m_novm s' = m_novm s.
  Proof.
    intros F [_ B N M] [_ B' N' M']. destruct (lower_hints rs rs' F) as [H1 H2]. split; [|split].
    - intros b I. apply B' in I as (r' & m' & Ct & I). destruct (H1 _ _ Ct) as (r & m & Ct' & Hi & _). apply B. exists r, m. split; [exact Ct'|apply Hi, I].
    - apply eq_true_iff_eq. rewrite M, M'. split; intros (r & m & Ct & E); [destruct (H1 _ _ Ct) as (r' & m' & Ct' & _ & Hm & _)|destruct (H2 _ _ Ct) as (r' & m' & Ct' & _ & Hm & _)];
        exists r', m'; (split; [exact Ct'|congruence]).
    - apply eq_true_iff_eq. rewrite N, N'. split; intros (r & m & Ct & E); [destruct (H1 _ _ Ct) as (r' & m' & Ct' & _ & _ & Hn)|destruct (H2 _ _ Ct) as (r' & m' & Ct' & _ & _ & Hn)];
        exists r', m'; (split; [exact Ct'|congruence]).
  Qed.

  Lemma possible paths rs m : analysed h major c file how paths rs -> c_ignore_incomp c = false -> verdict_in rs m -> m <> (None, None).
  Proof.
    intros A G (r & R & M). destruct (analysed_In h major c file how paths rs A) as [A1 _]. destruct (A1 _ R) as (p & _ & P).
    destruct (result_cases h major c file p (how p) r m P M) as [(source & ps & printed & F & D)|[(x & F & ->)|(source & ps & node & nov & e & s & s' & F & D & V & To & Mv)]].
    - destruct (detect_verdict _ _ _ _ _ D) as [se ->]. destruct (syntax_verdict_cases major c se) as [->|[->|[->|[->|(-> & _)]]]]; discriminate.
    - discriminate.
    - eapply verdict_possible; [|exact Mv]. unfold make_visitor, py_assert in V. destruct (path_ok c p); [|discriminate]. injection V as <-. exact G.
  Qed.

  Lemma run_less n paths rs out s : analysed h major c file how paths rs -> toured rs -> 1 <= n ->
    process h major c file how n paths = (out, Ok s) -> m_incomp s = false ->
    exists out' s', process h major c' file how n paths = (out', Ok s') /\ m_incomp s' = false /\ mins_le (m_mins s') (m_mins s) /\
      incl (m_bps s') (m_bps s) /\ m_maybe s' = m_maybe s /\ m_novm s' = m_novm s.
  Proof.
    intros A T N P I. assert (Ig : c_ignore_incomp c = c_ignore_incomp c') by apply More.
    assert (K : combinable c rs /\ forall r, In (Some r) rs -> r_mins r <> MNone).
    { destruct (c_ignore_incomp c) eqn:G.
      - assert (Cb : combinable c rs) by (left; exact G). split; [exact Cb|].
        destruct (process_summary h major c file how n paths rs A T N Cb) as (o1 & s1 & P1 & _ & J & _). rewrite P in P1. injection P1 as <- <-.
        intros r R M. assert (m_incomp s = true) by (apply J; eauto). congruence.
      - destruct (process_clash h major c file how n paths rs A T N G) as (o1 & s1 & P1 & _ & J & _). rewrite P in P1. injection P1 as <- <-. split.
        + right. intros a b Va Vb C. assert (m_incomp s = true) by (apply J; right; eauto). congruence.
        + intros r R M. assert (m_incomp s = true) by (apply J; left; eauto). congruence. }
    destruct K as [Cb NN].
    destruct (results_less paths rs A) as (rs' & A' & F).
    { intros r R. destruct (r_mins r) as [| |m] eqn:M; [exfalso; exact (NN r R M)|exfalso; exact (T r R M)|eauto]. }
    assert (T' : toured rs') by (intros r R M; destruct (lower_in rs rs' F r R) as (m & m' & _ & M' & _); congruence).
    assert (Cb' : combinable c' rs').
    { unfold combinable. rewrite <- Ig. destruct Cb as [Cb|Cb]; [left; exact Cb|]. destruct (c_ignore_incomp c) eqn:G; [left; reflexivity|right].
      intros a b (ra & Ra & Ma) (rb & Rb & Mb). destruct (lower_in rs rs' F ra Ra) as (x & x' & Vx & Mx & Lx), (lower_in rs rs' F rb Rb) as (y & y' & Vy & My & Ly).
      rewrite Ma in Mx. rewrite Mb in My. injection Mx as <-. injection My as <-.
      assert (Px := possible paths rs x A G Vx). assert (Py := possible paths rs y A G Vy).
      intros C. apply (Cb x y Vx Vy). clear - C Lx Ly Px Py. destruct a as [a1 a2], b as [b1 b2], x as [x1 x2], y as [y1 y2].
      unfold clashing, py2_only, py3_only, mins_le in *. cbn [fst snd] in *. destruct Lx as [Lx1 Lx2], Ly as [Ly1 Ly2].
      destruct C as [[[C1 C2] [C3 C4]]|[[C1 C2] [C3 C4]]]; subst.
      - left. destruct x2; [contradiction Lx2|]. destruct y1; [contradiction Ly1|]. repeat split; intros ->; auto.
      - right. destruct x1; [contradiction Lx1|]. destruct y2; [contradiction Ly2|]. repeat split; intros ->; auto. }
    destruct (process_summary h major c file how n paths rs A T N Cb) as (o1 & s1 & P1 & J1 & _ & S1 & _). rewrite P in P1. injection P1 as <- <-.
    destruct (process_summary h major c' file how n paths rs' A' T' N Cb') as (o2 & s2 & P2 & J2 & I2 & S2 & _). exists o2, s2. split; [exact P2|].
    split; [|split; [|exact (hints_less rs rs' s s2 F S1 S2)]].
    - destruct (m_incomp s2) eqn:G; [exfalso|reflexivity]. destruct (proj1 I2 eq_refl) as (r & R & M).
      destruct (lower_in rs rs' F r R) as (m & m' & _ & M' & _). congruence.
    - destruct J1 as (Z1 & U1 & _), J2 as (_ & _ & W2). apply W2; [exact Z1|]. intros m (r & R & M). destruct (lower_in rs rs' F r R) as (x & x' & Vx & Mx & Lx). rewrite M in Mx. injection Mx as <-.
      eapply mins_le_trans; [exact Lx|]. apply U1, Vx.
  Qed.
End Run.

Lemma detect_less h major c c' path source p m : laxer_reading c c' -> targets_given c -> targets_given c' ->
  api_detect h major c path source p = Ok m -> exists m', api_detect h major c' path source p = Ok m' /\ mins_le m' m.
Proof.
  intros M T T' H. unfold api_detect, api_visit in *. pose proof (same_detect major c c' M p) as D.
  destruct (parser_detect major c p) as [v n|v o|x], (parser_detect major c' p) as [v' n'|v' o'|x']; try contradiction.
  2: subst v'; injection H as <-; exists v; split; [reflexivity|apply mins_le_refl].
  2: discriminate.
  destruct D as [<- <-]. destruct (make_visitor h c (api_path path) source n) as [e|] eqn:E; [|discriminate].
  assert (E' : exists e', make_visitor h c' (api_path path) source n = Ok e').
  { unfold make_visitor, path_ok, py_assert in *. destruct M as (_ & _ & _ & _ & <-). destruct (_ || _); [eauto|discriminate]. }
  destruct E' as (e' & E'). rewrite E'. cbn [bindr] in *. destruct (tour e v) as [s|] eqn:To; [|discriminate].
  destruct (tour_laxer h h c c' (api_path path) source n e e' v s (proj1 M) T T' eq_refl E E' To) as (s' & -> & L). cbn [bindr] in *.
  destruct (minimum_versions e s) as [[m0 t]|x] eqn:V; [|discriminate]. cbn [bindr snd fst] in *.
  destruct (minimum_versions_again e s m0 t V) as (t2 & Q & _). rewrite Q in H. injection H as <-.
  assert (C : e_cfg e = c /\ e_cfg e' = c') by (unfold make_visitor, py_assert in *; destruct (path_ok c (api_path path)); [|discriminate];
    destruct (path_ok c' (api_path path)); [|discriminate]; injection E as <-; injection E' as <-; auto). destruct C as [C C'].
  destruct (versions_less on_request e e' s s' m0 t) as (m' & t' & V' & Le); try (rewrite ?C, ?C'; assumption).
  - rewrite C, C'. apply M.
  - unfold bps_of. rewrite C, C'. apply M.
  - rewrite V'. cbn [bindr snd fst]. destruct (minimum_versions_again e' s' m' t' V') as (t2' & -> & _). exists m'. split; [reflexivity|exact Le].
Qed.
