(** Library findings are printed at lines where they are used. Lemmas for C64. *)
From Verif Require Import PyBase PyLemmas Utility RulesData Rules Config Formats Paths AstKinds Ast State Visitor MinVersions
  Spec_Base Spec_Utility Spec_Formats Spec_MinVersions Spec_Visitor Spec_Places Spec_Explain
  Proof_Utility Proof_Rules Proof_Formats Proof_MinVersions Proof_Shapes Proof_Runs Proof_Claims Proof_Places Proof_Scopes.

Section Spots.
  Variable e : env.
  Notation cfg := (e_cfg e).

  (** ** Recorded places *)
  Definition asg_of (U : pyval -> Prop) (s : st) (a : string) : Prop :=
    In a (map fst (s_name_res s)) \/ exists n, U n /\ assigns n a.
  Lemma says_mono (imp imp' ali ali' : string -> string -> Prop) (asg asg' : string -> Prop) n x l :
    (forall x y, imp x y -> imp' x y) -> (forall x y, ali x y -> ali' x y) -> (forall x, asg x -> asg' x) ->
    says imp ali asg n x l -> says imp' ali' asg' n x l.
  Proof.
    intros I A G [[E D]|H]; [left|right; exact H]. split; [exact E|].
    destruct D as [D|[D|[D|[[K D]|[D|[D|[D|[D|D]]]]]]]]; auto 10.
    - do 6 right. left. exact (typecode_mono _ _ _ _ A D).
    - do 7 right. left. exact (handler_mono _ _ _ _ _ _ I A D).
    - do 8 right. exact (encoding_mono _ _ _ _ _ _ I A D).
  Qed.
  Lemma flat_places U s s' : flat e U s s' -> forall x l c, In (EStr x, (l, c)) (s_lcs s') ->
    In (EStr x, (l, c)) (s_lcs s) \/ exists n, U n /\ says (imp_of U s) (ali_of U s) (asg_of U s) n x l.
  Proof.
    intros F. induction F; unfold raise_flag in *; cbn [s_lcs u_strftimes u_bytesdirs u_typecodes u_cehs u_cencs u_ufds u_user_defs u_out u_lcs
      u_line u_depth u_flags u_modules u_members u_kwargs u_import_mem_mod u_name_res u_name_res_type u_module_as_name u_seen_await
      u_seen_yield u_seen_for u_seen_while u_try_finally u_ellipsis u_fns]; auto.
    - intros x l c I. destruct (IHF2 x l c I) as [J|(n & J & D)]; [auto|]. right. exists n. split; [exact J|].
      refine (says_mono _ _ _ _ _ _ _ _ _ _ _ _ D); clear -F1.
      + intros y p [I|I]; [exact (flat_imported _ _ _ _ _ _ F1 I)|right; exact I].
      + intros y p [I|I]; [exact (flat_aliased _ _ _ _ _ _ F1 I)|right; exact I].
      + intros y [I|I]; [exact (flat_keys _ _ _ _ _ F1 I)|right; exact I].
    - intros y l' c' [I|I]; [|auto]. injection I as <- <- <-. right. exists n. split; [assumption|].
      refine (says_mono _ _ _ _ _ _ _ _ _ _ _ _ H0); intros; left; assumption.
    - intros y l' c' [I|I]; [discriminate|auto].
  Qed.
  Lemma tour_places v s : tour e v = Ok s -> forall x l c, In (EStr x, (l, c)) (s_lcs s) ->
    exists n, below n v /\ says (imported v) (renamed v) (assigned v) n x l.
  Proof.
    intros E x l c I. destruct (tour_flat _ _ _ E) as (s1 & o & F & _ & ->). cbn in I.
    destruct (flat_places _ _ _ F x l c I) as [[]|(n & B & D)]. exists n. split; [exact B|].
    refine (says_mono _ _ _ _ _ _ _ _ _ _ _ _ D).
    - intros y p [J|J]; [discriminate|exact J].
    - intros y p [J|J]; [discriminate|exact J].
    - intros y [[]|J]. exact J.
  Qed.

  (** ** Lines *)
  Definition somewhere (s : st) (z : option Z) : Prop :=
    3 <= c_verbose cfg -> (forall x l c, In (x, (l, c)) (s_lcs s) -> l <> -1) ->
    exists l, z = Some l /\ (l = s_line s \/ exists x c, In (x, (l, c)) (s_lcs s)).
  Definition line_for (s : st) (r : mins) (i : string) (x : entity) (y : string) : Prop :=
    exists z c, y = format_output_line cfg i (e_path e) z c (Some r) None /\
      (forall l c', lookup_lc x s = Some (l, c') -> 3 <= c_verbose cfg -> l <> -1 -> z = Some l) /\ somewhere s z.
  Lemma print_exact i x r s s' : verbose_print_v e 2 i (Some x) None (Some r) None s = Ok s' ->
    s_lcs s' = s_lcs s /\ s_line s' = s_line s /\
    ((s_out s' = s_out s /\ (violates e (Some r) = Ok true -> ~ outspoken cfg)) \/
     violates e (Some r) = Ok true /\
     exists y, s_out s' = s_out s ++ [y] /\ line_for s r i x y).
  Proof.
    intros E. unfold verbose_print_v in E. destruct (violates e (Some r)) as [[|]|] eqn:V; try discriminate.
    2: { injection E as <-. split; [reflexivity|]. split; [reflexivity|]. left. split; [reflexivity|discriminate]. }
    destruct (skip_output_line cfg || (c_verbose cfg <? 2)) eqn:Sk.
    - injection E as <-. split; [reflexivity|]. split; [reflexivity|]. left. split; [reflexivity|]. intros _ [Q Ve].
      apply orb_true_iff in Sk as [Sk|Sk]; [|apply Z.ltb_lt in Sk; lia]. unfold skip_output_line in Sk.
      destruct Q as [Q|Q]; rewrite Q in Sk; cbn in Sk; [discriminate|]. destruct (c_format cfg); discriminate.
    - destruct (2 <? c_verbose cfg) eqn:Ve; [destruct (lookup_lc x s) as [[l c]|] eqn:Lk|]; injection E as <-;
        (split; [reflexivity|]); (split; [reflexivity|]); right; (split; [reflexivity|]); eexists; (split; [reflexivity|]);
        do 2 eexists; (split; [reflexivity|]); rewrite ?Lk; (split; [|intros V3 Al]).
      + intros l' c' El _ N. injection El as <- <-. destruct (Z.eqb_spec l (-1)); [contradiction|reflexivity].
      + unfold lookup_lc in Lk. destruct (find _ (s_lcs s)) as [[y [l' c']]|] eqn:Fi; [|discriminate]. injection Lk as -> ->.
        apply find_some in Fi as [Fi _]. specialize (Al _ _ _ Fi). destruct (Z.eqb_spec l (-1)); [contradiction|]. eauto 6.
      + discriminate.
      + eauto.
      + intros l c _ V3. apply Z.ltb_ge in Ve. lia.
      + apply Z.ltb_ge in Ve. lia.
  Qed.

  Lemma run_steps_exact : forall l m s m' s', run_steps e l m s = Ok (m', s') ->
    exists lines, s_out s' = s_out s ++ lines /\
      (forall y, In y lines -> exists r i x, In (SRule r (Some i) (Some x)) l /\ line_for s r i x y) /\
      (forall r i x, In (SRule r (Some i) (Some x)) l -> outspoken cfg -> violates e (Some r) = Ok true ->
         exists y, In y lines /\ line_for s r i x y).
  Proof.
    induction l as [|[v i ent|x] l IH]; intros m s m' s' H; cbn [run_steps] in H; [| |discriminate].
    - injection H as _ <-. exists []. rewrite app_nil_r. repeat split; try reflexivity; [intros y []|intros r i x []].
    - unfold bindr in H. destruct (add_versions e v i ent m s) as [[m1 s1]|] eqn:A; [|discriminate]. cbn [fst snd] in H.
      destruct (IH _ _ _ _ H) as (lines & O & Q & R).
      assert (H1 : s_lcs s1 = s_lcs s /\ s_line s1 = s_line s /\ ((s_out s1 = s_out s /\ forall i0 x, i = Some i0 -> ent = Some x -> violates e (Some v) = Ok true -> ~ outspoken cfg) \/
                   exists i0 x y, i = Some i0 /\ ent = Some x /\ s_out s1 = s_out s ++ [y] /\ line_for s v i0 x y)).
      { clear -A. unfold add_versions, bindr in A. destruct (violates e (Some v)) as [b|] eqn:V; [|discriminate].
        match type of A with match ?a with _ => _ end = _ => destruct a as [s2|] eqn:B; [|discriminate] end.
        destruct (combine2 _ _ _ _); [|discriminate]. injection A as _ <-.
        destruct i as [i|]; [|injection B as <-; split; [reflexivity|split; [reflexivity|]]; left; split; [reflexivity|discriminate]].
        destruct b; cbn [when] in B; [|injection B as <-; split; [reflexivity|split; [reflexivity|]]; left; split; [reflexivity|discriminate]].
        destruct (seq_ok _ _ _ _ B) as (s3 & B1 & B2). injection B1 as <-.
        destruct ent as [x|]; [|injection B2 as <-; split; [reflexivity|split; [reflexivity|]]; left; split; [reflexivity|discriminate]].
        destruct (print_exact _ _ _ _ _ B2) as (L & L' & [(O & N)|(_ & y & O & W)]); (split; [exact L|]; split; [exact L'|]).
        - left. split; [exact O|]. intros i0 x0 _ _ _. exact (N V).
        - right. exists i, x. exists y. auto. }
      destruct H1 as (L1 & L2 & H1).
      assert (Lf : forall r i x y, line_for s1 r i x y -> line_for s r i x y).
      { intros r i0 x y (z & c & E & W). exists z, c. split; [exact E|]. unfold lookup_lc, somewhere in *. rewrite L1, L2 in W. exact W. }
      destruct H1 as [(O1 & N)|(i0 & x & y & -> & -> & O1 & W)].
      + exists lines. split; [rewrite O, O1; reflexivity|]. split.
        * intros y I. destruct (Q y I) as (r & i0 & x & J & D). exists r, i0, x. split; [right; exact J|exact (Lf _ _ _ _ D)].
        * intros r i0 x [E|J] Ou V.
          -- injection E as -> -> ->. destruct (N i0 x eq_refl eq_refl V Ou).
          -- destruct (R r i0 x J Ou V) as (y & I & D). exists y. split; [exact I|exact (Lf _ _ _ _ D)].
      + exists (y :: lines). split; [rewrite O, O1, <- app_assoc; reflexivity|]. split.
        * intros y0 [<-|I]; [exists v, i0, x; split; [left; reflexivity|exact W]|].
          destruct (Q y0 I) as (r & i1 & x1 & J & D). exists r, i1, x1. split; [right; exact J|exact (Lf _ _ _ _ D)].
        * intros r i1 x1 [E|J] Ou V.
          -- injection E as <- <- <-. exists y. split; [left; reflexivity|exact W].
          -- destruct (R r i1 x1 J Ou V) as (y0 & I & D). exists y0. split; [right; exact I|exact (Lf _ _ _ _ D)].
  Qed.

  (** ** Steps *)
  Lemma rule_step_in {A} (lk : A -> option mins) tx en l r i x :
    In (SRule r (Some i) (Some x)) (rule_steps lk tx en l) <-> exists a, In a l /\ lk a = Some r /\ i = tx a /\ x = en a.
  Proof.
    unfold rule_steps. rewrite in_flat_map. split.
    - intros (a & I & H). exists a. destruct (lk a); [|destruct H]. destruct H as [H|[]]. injection H as <- <- <-. auto.
    - intros (a & I & E & -> & ->). exists a. split; [exact I|]. rewrite E. left. reflexivity.
  Qed.
  Lemma enc_step_in l r i x : In (SRule r (Some i) (Some x)) (flat_map encoding_steps l) <->
    exists n k, In (VStr n) l /\ In (k, r) codecs_encodings_reqs /\ covers k (lower n) /\ i = quoted "codecs encoding " n "" /\ x = EStr n.
  Proof.
    split.
    - intros H. apply in_flat_map in H as (v & I & H). apply in_flat_map in H as ([k q] & J & H).
      destruct v as [| | | | |n|n| | |]; cbn [fst snd] in H; try (destruct H as [H|[]]; discriminate H).
      + destruct (enc_matches k (lower n)) eqn:E; [|destruct H]. destruct H as [H|[]]. injection H as <- <- <-.
        apply enc_matches_iff in E. exists n, k. auto.
      + destruct k; [destruct H|destruct H as [H|[]]; discriminate].
    - intros (n & k & I & J & C & -> & ->). apply in_flat_map. exists (VStr n). split; [exact I|]. apply in_flat_map. exists (k, r).
      split; [exact J|]. cbn [fst snd]. apply enc_matches_iff in C. rewrite C. left. reflexivity.
  Qed.
  Lemma step_finding s r i x : In (SRule r (Some i) (Some x)) (steps e s) <->
    (exists t, x = EStr t /\ finding (bps_of e) s t i r) \/
    (exists f k, x = EKw f (Some k) /\ In (f, Some k) (s_kwargs s) /\ kwarg_req (bps_of e) (f, k) = Some r /\ i = "'" +++ f +++ "(" +++ k +++ ")'").
  Proof.
    destruct small_keys_nodup as (N1 & N2 & N3 & N4 & N5 & _).
    unfold steps. rewrite !in_app_iff, !rule_step_in, enc_step_in. split.
    - intros [H|[H|[H|[H|[H|[H|[H|[H|[H|H]]]]]]]]].
      + apply in_flat_map in H as ([[f v] j] & _ & H). destruct (has_flag s f); [destruct H as [H|[]]; discriminate|destruct H].
      + destruct H as (a & I & A & -> & ->). left. exists a. split; [reflexivity|]. apply fi_strftime; [exact I|]. apply assoc_iff; auto.
      + destruct H as (a & I & A & -> & ->). left. exists a. split; [reflexivity|]. apply fi_bytes; [exact I|]. apply assoc_iff; auto.
      + destruct H as (a & I & A & -> & ->). left. exists a. split; [reflexivity|]. apply fi_typecode; [exact I|]. apply assoc_iff; auto.
      + destruct H as (a & I & A & -> & ->). destruct a; try discriminate. left. eexists. split; [reflexivity|]. apply fi_handler; [exact I|].
        apply assoc_iff; auto.
      + destruct H as (n & k & I & J & C & -> & ->). left. exists n. split; [reflexivity|]. exact (fi_encoding _ _ n k r I J C).
      + destruct H as (a & I & A & -> & ->). left. exists a. split; [reflexivity|]. exact (fi_module _ _ _ _ I A).
      + destruct H as (a & I & A & -> & ->). left. exists a. split; [reflexivity|]. exact (fi_member _ _ _ _ I A).
      + destruct H as ([f [k|]] & I & A & -> & ->); [|discriminate]. right. exists f, k. repeat (split; [auto|]).
        unfold quoted. cbn [fst snd kw_text]. rewrite !app_assoc_s. reflexivity.
      + destruct H as (a & I & A & -> & ->). left. exists a. split; [reflexivity|]. apply fi_deco; [exact I|]. apply assoc_iff; auto.
    - intros [(t & -> & F)|(f & k & -> & I & A & ->)].
      + destruct F as [d r I J|d r I J|d r I J|n r I J|n k r I J C|n r I J|n r I J|n r I J].
        * right. left. exists d. split; [exact I|]. split; [apply assoc_iff; auto|]. auto.
        * do 2 right. left. exists d. split; [exact I|]. split; [apply assoc_iff; auto|]. auto.
        * do 3 right. left. exists d. split; [exact I|]. split; [apply assoc_iff; auto|]. auto.
        * do 4 right. left. exists (VStr n). split; [exact I|]. split; [apply assoc_iff; auto|]. auto.
        * do 5 right. left. exists n, k. auto.
        * do 6 right. left. exists n. auto.
        * do 7 right. left. exists n. auto.
        * do 9 right. exists n. split; [exact I|]. split; [apply assoc_iff; auto|]. auto.
      + do 8 right. left. exists (f, Some k). split; [exact I|]. split; [exact A|]. split; [|reflexivity].
        unfold quoted. cbn [fst snd kw_text]. rewrite !app_assoc_s. reflexivity.
  Qed.
  Lemma finding_recorded s x i r : finding (bps_of e) s x i r -> recorded s x.
  Proof. unfold recorded. intros F. destruct F; auto 12. Qed.
  Lemma keyed_found s x : keyed s x -> exists l c, lookup_lc (EStr x) s = Some (l, c) /\ In (EStr x, (l, c)) (s_lcs s).
  Proof.
    intros (p & I). unfold lookup_lc. destruct (find (fun kv => entity_eqb (EStr x) (fst kv)) (s_lcs s)) as [[y [l c]]|] eqn:F.
    - apply find_some in F as [J E]. cbn [fst] in E. destruct y as [y|f k]; [|discriminate]. cbn in E. apply String.eqb_eq in E as <-.
      exists l, c. split; [reflexivity|exact J].
    - apply find_none with (x := (EStr x, p)) in F; [|exact I]. cbn in F. rewrite String.eqb_refl in F. discriminate.
  Qed.
  Lemma on_show_violates r : on_show cfg r -> violates e (Some r) = Ok true.
  Proof.
    intros [O|(O & T & X)]; [apply violates_off, O|]. destruct (violates_iff e r O T) as (b & E & B). rewrite E. apply B in X as ->. reflexivity.
  Qed.

  Lemma line_spot v s x i r y : c_print_visits cfg = false -> placed_tree v -> tour e v = Ok s -> 3 <= c_verbose cfg ->
    finding (bps_of e) s x i r -> line_for s r i (EStr x) y -> said_where_used e v x i r y.
  Proof.
    intros NV PT T V3 F (z & c & -> & W & _). destruct (good_tour e v s NV PT T) as (_ & B & _ & K).
    destruct (keyed_found _ _ (K x (finding_recorded _ _ _ _ F))) as (l & c' & El & I).
    assert (N : l <> -1).
    { destruct (B _ _ _ I) as [->|(n & c0 & Bn & P)]; [discriminate|]. pose proof (proj2 (proj2 PT) n l c0 Bn P). lia. }
    rewrite (W _ _ El V3 N). destruct (tour_places v s T _ _ _ I) as (n & Bn & D). exists l, c, n. auto.
  Qed.

  Variables (v : pyval) (s : st) (m : mins) (s' : st).
  Hypothesis NV : c_print_visits cfg = false.
  Hypothesis PT : placed_tree v.
  Hypothesis T : tour e v = Ok s.
  Hypothesis M : minimum_versions e s = Ok (m, s').
  Hypothesis V3 : 3 <= c_verbose cfg.

  Lemma two_halves : exists s1 first lines, s_out s1 = s_out s ++ first /\
    (forall y, In y first -> y = format_output_line cfg "print(expr)" (e_path e) None None (Some (both 0 0)) None) /\
    s_out s' = s_out s1 ++ lines /\
    (forall y, In y lines -> exists r i x, In (SRule r (Some i) (Some x)) (steps e s) /\ line_for s r i x y) /\
    (forall r i x, In (SRule r (Some i) (Some x)) (steps e s) -> outspoken cfg -> violates e (Some r) = Ok true ->
       exists y, In y lines /\ line_for s r i x y).
  Proof.
    unfold minimum_versions, bindr in M. match type of M with match ?a with _ => _ end = _ => destruct a as [s1|] eqn:A; [|discriminate] end.
    assert (H : s_lcs s1 = s_lcs s /\ s_line s1 = s_line s /\ exists first, s_out s1 = s_out s ++ first /\
      forall y, In y first -> y = format_output_line cfg "print(expr)" (e_path e) None None (Some (both 0 0)) None).
    { destruct (has_flag s FPrintV3); cbn [when] in A.
      - unfold verbose_print_v in A. destruct (violates e _) as [[|]|]; try discriminate.
        + destruct (_ || _); injection A as <-; (split; [reflexivity|]; split; [reflexivity|]); [exists []; rewrite app_nil_r; split; [reflexivity|intros y []]|].
          eexists. split; [reflexivity|]. intros y [<-|[]]. reflexivity.
        + injection A as <-. split; [reflexivity|]. split; [reflexivity|]. exists []. rewrite app_nil_r. split; [reflexivity|intros y []].
      - injection A as <-. split; [reflexivity|]. split; [reflexivity|]. exists []. rewrite app_nil_r. split; [reflexivity|intros y []]. }
    destruct H as (L & L' & first & O & Fi). destruct (run_steps_exact _ _ _ _ _ M) as (lines & O2 & Q & R).
    assert (Lf : forall r i x y, line_for s1 r i x y -> line_for s r i x y).
    { intros r i0 x y (z & c & E & W). exists z, c. split; [exact E|]. unfold lookup_lc, somewhere in *. rewrite L, L' in W. exact W. }
    exists s1, first, lines. split; [exact O|]. split; [exact Fi|]. split; [exact O2|]. split.
    - intros y I. destruct (Q y I) as (r & i & x & J & D). exists r, i, x. auto.
    - intros r i x J Ou V. destruct (R r i x J Ou V) as (y & I & D). exists y. auto.
  Qed.

  Lemma each_said x msg r : outspoken cfg -> finding (bps_of e) s x msg r -> on_show cfg r ->
    exists y, In y (s_out s') /\ said_where_used e v x msg r y.
  Proof.
    intros Ou F Sh. destruct two_halves as (s1 & first & lines & O1 & _ & O2 & _ & R).
    destruct (R r msg (EStr x)) as (y & I & D); [apply step_finding; left; eauto|exact Ou|apply on_show_violates, Sh|].
    exists y. split; [rewrite O2; apply in_or_app; right; exact I|]. exact (line_spot v s x msg r y NV PT T V3 F D).
  Qed.
End Spots.
