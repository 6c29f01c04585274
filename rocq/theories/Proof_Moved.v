(** Files whose layout differs, and files with lines on top. Lemmas for C77. *)
From Verif Require Import PyBase PyLemmas Utility RulesData Rules Config Formats Paths AstKinds Ast State Visitor MinVersions Fstring
  Parser Processor Spec_Base Spec_Visitor Spec_Seen Spec_MinVersions Spec_Same Spec_Layout
  Proof_MinVersions Proof_Same Proof_Verdict Proof_Layout.
From Verif Require Proof_Shapes Proof_Forms Proof_Sight Proof_Parser.

(** ** The f-string heuristic does not depend on positions *)
Section Self.
  Variable f : N -> option (Z * Z) -> option (Z * Z).
  Variable man : list (string * string).
  Notation R := (relay f).
  Notation Rs := (map (fun fx : string * pyval => (fst fx, relay f (snd fx)))).

  Lemma xaction_relay k u p fs ks : xaction man (VNode k u (f u p) (Rs fs)) k (Rs fs) ks = xaction man (VNode k u p fs) k fs ks.
  Proof.
    change (VNode k u (f u p) (Rs fs)) with (R (VNode k u p fs)).
    destruct k; unfold xaction; rewrite ?gan_relay, ?fstr_relay, ?flist_relay, ?fld_relay, ?as_ostr_relay, ?map_length; try reflexivity.
    destruct (fld "value" fs); reflexivity.
  Qed.
  Lemma xsem_relay v : xsem man (R v) = xsem man v.
  Proof.
    induction v as [ |b|z|s|s|s|s| |l IH|k u p fs IH] using pyval_rect'; try reflexivity.
    - cbn [relay xsem]. f_equal. rewrite map_map. apply map_ext_Forall. exact IH.
    - cbn [relay xsem].
      assert (E : map (fun fx => (fst fx, xsem man (snd fx))) (Rs fs) = map (fun fx => (fst fx, xsem man (snd fx))) fs).
      { rewrite map_map. apply map_ext_Forall. apply Forall_impl with (2 := IH). intros [g x] X. cbn in *. rewrite X. reflexivity. }
      rewrite E, xaction_relay. reflexivity.
  Qed.
  Lemma selfdoc_cons x y l : selfdoc_loop man (x :: y :: l) =
    match str_val x with
    | Some s =>
        if endswith "=" (strip s) && is_kind KFormattedValue y then
          letr t := extract_fstring_value man (attr "value" y) in
          let t := trim_fstring_value t in
          if negb (String.eqb t "") && endswith (t +++ "=") (trim_fstring_value s) then Ok true else selfdoc_loop man (y :: l)
        else selfdoc_loop man (y :: l)
    | None => selfdoc_loop man (y :: l)
    end.
  Proof. reflexivity. Qed.
  Lemma selfdoc_loop_relay l : selfdoc_loop man (map R l) = selfdoc_loop man l.
  Proof.
    induction l as [|x l IH]; [reflexivity|]. destruct l as [|y l]; [reflexivity|].
    change (map R (x :: y :: l)) with (R x :: R y :: map R l). rewrite !selfdoc_cons.
    change (R y :: map R l) with (map R (y :: l)).
    rewrite str_val_relay, is_kind_relay, attr_relay. unfold extract_fstring_value. rewrite xsem_relay, IH. reflexivity.
  Qed.
  Lemma selfdoc_relay v : selfdoc man (R v) = selfdoc man v.
  Proof. unfold selfdoc. rewrite attr_relay, as_list_relay. apply selfdoc_loop_relay. Qed.
End Self.

(** ** Files *)
Lemma same_analysis_refl c : same_analysis c c.
Proof. repeat split; auto. Qed.

Lemma file_relaid d d' c path src src' v nov nov' how f :
  targets_given c -> path_ok c path = true ->
  relaid (mkEnv c path (Some src) nov selfdoc d) (mkEnv c path (Some src') nov' selfdoc d') f v ->
  laid_result (process_tree (mkHooks selfdoc d) c path src v nov how)
              (process_tree (mkHooks selfdoc d') c path src' (relay f v) nov' how).
Proof.
  intros T P E. unfold process_tree, make_visitor, py_assert. rewrite P. cbn [bindr h_selfdoc h_dump].
  set (e := mkEnv c path (Some src) nov selfdoc d) in *. set (e' := mkEnv c path (Some src') nov' selfdoc d') in *.
  assert (M : laid_result
    (letr s := tour e v in
     match minimum_versions e s with
     | Ok (m, s') => Ok (mkRes path (MVers m) (output_text e s') nov
                           (dedup (filter is_backport (s_modules s'))) (has_flag s' FMaybeAnnotations))
     | Err (InvalidVersion msg) => Ok (mkRes path MNone msg nov [] false)
     | Err x => Err x end)
    (letr s := tour e' (relay f v) in
     match minimum_versions e' s with
     | Ok (m, s') => Ok (mkRes path (MVers m) (output_text e' s') nov'
                           (dedup (filter is_backport (s_modules s'))) (has_flag s' FMaybeAnnotations))
     | Err (InvalidVersion msg) => Ok (mkRes path MNone msg nov' [] false)
     | Err x => Err x end)).
  { pose proof (tour_relaid c path (Some src) (Some src') nov nov' selfdoc selfdoc d d' f T (selfdoc_relay f) v E) as A.
    fold e e' in A. destruct (tour e v) as [s|x], (tour e' (relay f v)) as [s'|x']; cbn in A; try contradiction.
    2: exact A.
    cbn [bindr]. pose proof (versions_same e e' eq_refl eq_refl T T s s' A) as V.
    destruct (minimum_versions e s) as [[m t]|x], (minimum_versions e' s') as [[m' t']|x']; cbn in V; try contradiction.
    - destruct V as [<- (o & l & k & i & ->)]. cbn. auto.
    - destruct x, x'; try contradiction; try discriminate V; cbn; auto; try congruence. }
  destruct how; [exact M|cbn; auto|exact M|reflexivity].
Qed.

Lemma detect_relaid d d' major c path src src' v nov nov' p p' f :
  targets_given c -> path_ok c (api_path path) = true ->
  parser_detect major c p = DTree v nov -> parser_detect major c p' = DTree (relay f v) nov' ->
  relaid (mkEnv c (api_path path) (Some src) nov selfdoc d) (mkEnv c (api_path path) (Some src') nov' selfdoc d') f v ->
  same_mins (api_detect (mkHooks selfdoc d) major c path src p) (api_detect (mkHooks selfdoc d') major c path src' p').
Proof.
  intros T P D D' E. unfold api_detect, api_visit. rewrite D, D'.
  unfold make_visitor, py_assert. rewrite P. cbn [bindr h_selfdoc h_dump].
  pose proof (tour_relaid c (api_path path) (Some src) (Some src') nov nov' selfdoc selfdoc d d' f T (selfdoc_relay f) v E) as A.
  set (e := mkEnv c (api_path path) (Some src) nov selfdoc d) in *. set (e' := mkEnv c (api_path path) (Some src') nov' selfdoc d') in *.
  destruct (tour e v) as [s|x], (tour e' (relay f v)) as [s'|x']; cbn in A; try contradiction; cbn [bindr]; [|cbn; subst; apply failure_refl].
  pose proof (versions_same e e' eq_refl eq_refl T T s s' A) as V.
  destruct (minimum_versions e s) as [[m t]|x] eqn:M, (minimum_versions e' s') as [[m' t']|x'] eqn:M'; cbn in V; try contradiction; cbn [bindr snd].
  - destruct V as [<- _].
    destruct (minimum_versions_again e s m t M) as (t2 & -> & _), (minimum_versions_again e' s' m t' M') as (t2' & -> & _). reflexivity.
  - exact V.
Qed.

(** ** Lines on top *)
Lemma one_line_no_break l : one_line l -> Proof_Shapes.no_break l = true.
Proof.
  intros H. induction l as [|c l IH]; [reflexivity|]. unfold Proof_Shapes.no_break in *. rewrite Proof_Utility.sall_cons.
  rewrite (H "" c l eq_refl). apply IH. intros a x b ->. apply (H (String c a) x b). reflexivity.
Qed.
Lemma lines_below above src : (forall l, In l above -> one_line l) -> splitlines (text_below above src) = above ++ splitlines src.
Proof.
  intros H. unfold text_below. induction above as [|l r IH]; [reflexivity|]. cbn [map sconcat].
  rewrite !app_assoc_s. unfold splitlines in *.
  rewrite Proof_Shapes.splitlines_aux_pre by (apply one_line_no_break, H; left; reflexivity).
  change (("" +++ l) :: splitlines_aux false "" (sconcat (map (fun l => l +++ nl) r) +++ src) = l :: r ++ splitlines_aux false "" src).
  f_equal. apply IH. intros x I. apply H. right. exact I.
Qed.

Section Moved.
  Variables (c : config) (path : string) (above : list string) (src : string) (nov nov' : list Z) (d d' : pyval -> string).
  Hypothesis Ab : forall l, In l above -> one_line l.
  Let k := Z.of_nat (List.length above).
  Let e := mkEnv c path (Some src) nov selfdoc d.
  Let e' := mkEnv c path (Some (text_below above src)) nov' selfdoc d'.

  Lemma nth_below l : 0 < l -> nth_error (splitlines (text_below above src)) (Z.to_nat (l + k - 1)) = nth_error (splitlines src) (Z.to_nat (l - 1)).
  Proof.
    intros L. rewrite lines_below by exact Ab. rewrite nth_error_app2 by (unfold k; lia). f_equal. unfold k. lia.
  Qed.
  Lemma from_below l : 0 < l -> lines_from (text_below above src) (l + k) = lines_from src l.
  Proof.
    intros L. unfold lines_from. rewrite lines_below by exact Ab.
    replace (Z.to_nat (l + k - 1)) with (List.length above + Z.to_nat (l - 1))%nat by (unfold k; lia).
    rewrite skipn_app, skipn_all2 by lia. cbn. f_equal. lia.
  Qed.
  Lemma star_below l col : 0 < l -> (except_star e l col <-> except_star e' (l + k) col).
  Proof.
    intros L. unfold except_star. cbn [e_source e e']. split.
    - intros (s & x & w & b & [= <-] & _ & N & S). exists (text_below above src), x, w, b. rewrite nth_below by exact L.
      split; [reflexivity|]. split; [unfold k; lia|]. split; assumption.
    - intros (s & x & w & b & [= <-] & _ & N & S). exists src, x, w, b. rewrite nth_below in N by exact L.
      split; [reflexivity|]. split; [exact L|]. split; assumption.
  Qed.
  Lemma paren_below l : 0 < l -> (with_paren e l <-> with_paren e' (l + k)).
  Proof.
    intros L. unfold with_paren. cbn [e_source e e']. split; intros (s & x & ls & a & w & b & [= <-] & F & J).
    - exists (text_below above src), x, ls, a, w, b. rewrite from_below by exact L. auto.
    - exists src, x, ls, a, w, b. rewrite from_below in F by exact L. auto.
  Qed.
  Lemma near_below l : 0 < l -> with_paren_near e l -> with_paren_near e' (l + k).
  Proof.
    intros L. unfold with_paren_near. cbn [e_source e e']. intros (s & x & ls & a & w & b & [= <-] & _ & F & J).
    exists (text_below above src), x, ls, a, w, b. rewrite from_below by exact L. split; [reflexivity|]. split; [unfold k; lia|]. auto.
  Qed.

  Hypothesis Nov : nov' = map (fun l => l + k) nov.
  Hypothesis Pos : forall l, In l nov -> 0 < l.

  Lemma relaid_below v :
    (forall n, below n v -> placed n /\ proper n /\ (with_stmt n -> with_paren e (lineno n) -> with_paren_near e (lineno n))) ->
    relaid e e' (down k) v.
  Proof.
    intros H n B. destruct (H n B) as (Pl & Pr & W). split; [|exact Pr]. unfold placed in Pl.
    assert (Nd : is_node n = true) by (clear - B; induction B; auto).
    destruct n as [| | | | | | | | |kd u p fs]; try discriminate Nd.
    cbn [pos_of] in Pl. destruct p as [[l cl]|].
    - change (lineno (VNode kd u (Some (l, cl)) fs)) with l in *.
      constructor; change (lineno (relay (down k) (VNode kd u (Some (l, cl)) fs))) with (l + k);
        change (col_offset (relay (down k) (VNode kd u (Some (l, cl)) fs))) with cl;
        change (lineno (VNode kd u (Some (l, cl)) fs)) with l; change (col_offset (VNode kd u (Some (l, cl)) fs)) with cl.
      + unfold counted. change (lineno (relay (down k) (VNode kd u (Some (l, cl)) fs))) with (l + k).
        change (lineno (VNode kd u (Some (l, cl)) fs)) with l. cbn [e_nolines e e']. rewrite Nov, in_map_iff. split.
        * intros A (x & X & I). apply A. replace l with x by lia. exact I.
        * intros A I. apply A. exists l. split; [reflexivity|exact I].
      + intros _. apply star_below, Pl.
      + intros Ws. specialize (W Ws). destruct (has_with_paren e l) eqn:E.
        * left. assert (N : with_paren_near e l) by (apply W, Proof_Shapes.with_paren_text, E). split; [exact N|apply near_below; assumption].
        * right. assert (N : ~ with_paren e l). { intros X. apply W, Proof_Sight.near_found in X. congruence. }
          split; [exact N|]. rewrite <- paren_below by exact Pl. exact N.
    - destruct Pl as [P1 P2]. constructor; [|intros X; contradiction|intros X; contradiction].
      unfold counted. change (lineno (relay (down k) (VNode kd u None fs))) with 0. change (lineno (VNode kd u None fs)) with 0.
      cbn [e_nolines e e']. rewrite Nov, in_map_iff. split.
      + intros _ (x & X & I). specialize (Pos x I). unfold k in X. lia.
      + intros _ I. specialize (Pos 0 I). lia.
  Qed.
End Moved.

(** ** Comments *)
Lemma zset_moved k x l : zset_add (x + k) (map (fun y => y + k) l) = map (fun y => y + k) (zset_add x l).
Proof.
  assert (E : zmem (x + k) (map (fun y => y + k) l) = zmem x l).
  { unfold zmem. induction l as [|y l IH]; [reflexivity|]. cbn [map existsb]. rewrite IH. f_equal.
    destruct (Z.eqb_spec x y), (Z.eqb_spec (x + k) (y + k)); auto; lia. }
  unfold zset_add. rewrite E. destruct (zmem x l); [reflexivity|]. rewrite map_app. reflexivity.
Qed.

(** The states of the two loops: [first] before the first token. *)
Definition moved_state (k : Z) (first : bool) (s s' : cstate) : Prop :=
  let '(p, ml, nov) := s in let '(p', ml', nov') := s' in
  (first = true \/ p = p') /\
  (match ml, ml' with
   | Some (a, b), Some (a', b') => a' = a + k /\ b' = b + k
   | None, Some (_, b') => b' <= k
   | None, None => True
   | Some _, None => False
   end) /\ nov' = map (fun y => y + k) nov.

Lemma moved_step k first s s' t : moved_state k first s s' -> 0 < tk_row t ->
  (first = true -> tk_type t = TkComment -> tk_col t = 0) ->
  moved_state k false (comment_step s t) (comment_step s' (token_down k t)).
Proof.
  destruct s as [[p ml] nov], s' as [[p' ml'] nov']. intros (P & M & ->) R F. unfold comment_step. cbn [token_down tk_type tk_string tk_row tk_col tk_end].
  destruct (tk_type t) eqn:T; cbn [tk_eqb orb].
  - destruct (triple_quoted (tk_string t)); (split; [right; reflexivity|]); (split; [|reflexivity]); [split; reflexivity|exact M].
  - split; [right; reflexivity|]. split; [exact I|]. destruct (comment_marks (tk_string t)); [|reflexivity].
    assert (A : p || (tk_col t =? 0) = p' || (tk_col t =? 0)).
    { destruct P as [->| ->]; [|reflexivity]. rewrite (F eq_refl eq_refl). rewrite Z.eqb_refl, !orb_true_r. reflexivity. }
    rewrite <- A. rewrite <- zset_moved. f_equal.
    assert (L : match ml' with Some (a, b) => if b =? tk_row t + k then a else tk_row t + k | None => tk_row t + k end =
                match ml with Some (a, b) => if b =? tk_row t then a else tk_row t | None => tk_row t end + k).
    { destruct ml as [[a b]|], ml' as [[a' b']|]; try contradiction; auto.
      - destruct M as [-> ->]. destruct (Z.eqb_spec b (tk_row t)), (Z.eqb_spec (b + k) (tk_row t + k)); auto; lia.
      - destruct (Z.eqb_spec b' (tk_row t + k)); auto; lia. }
    rewrite L. destruct (p || (tk_col t =? 0)); lia.
  - split; [right; reflexivity|]. split; [exact M|reflexivity].
  - split; [right; reflexivity|]. split; [exact M|reflexivity].
  - split; [right; reflexivity|]. split; [exact M|reflexivity].
Qed.

Lemma moved_loop k toks : forall first s s', moved_state k first s s' -> (forall t, In t toks -> 0 < tk_row t) ->
  (first = true -> match toks with t :: _ => tk_type t = TkComment -> tk_col t = 0 | [] => True end) ->
  snd (fold_left comment_step (map (token_down k) toks) s') = map (fun y => y + k) (snd (fold_left comment_step toks s)).
Proof.
  induction toks as [|t r IH]; intros first s s' M R F; cbn [map fold_left].
  - destruct s as [[p ml] nov], s' as [[p' ml'] nov']. apply M.
  - apply (IH false); [|intros x I; apply R; right; exact I|discriminate].
    apply (moved_step k first); [exact M|apply R; left; reflexivity|exact F].
Qed.

Lemma top_loop k top : top_tokens k top -> forall p ml, (match ml with Some (_, b) => b <= k | None => True end) ->
  exists p' ml', fold_left comment_step top (p, ml, []) = (p', ml', []) /\ match ml' with Some (_, b) => b <= k | None => True end.
Proof.
  induction top as [|t r IH]; intros H p ml M; [exists p, ml; split; [reflexivity|exact M]|]. cbn [fold_left].
  destruct (H t (or_introl eq_refl)) as (T1 & T2 & T3).
  assert (Q : exists p' ml', comment_step (p, ml, []) t = (p', ml', []) /\ match ml' with Some (_, b) => b <= k | None => True end).
  { unfold comment_step. destruct (tk_type t) eqn:T; try (eexists _, ml; split; [reflexivity|exact M]).
    - destruct (triple_quoted (tk_string t)); [eexists _, (Some _); split; [reflexivity|exact T2]|eexists _, ml; split; [reflexivity|exact M]].
    - destruct (T3 eq_refl) as [B N]. destruct (comment_marks (tk_string t)) eqn:C; [|eexists _, None; split; [reflexivity|exact I]].
      exfalso. apply N. apply Proof_Parser.comment_marks_iff; assumption. }
  destruct Q as (p' & ml' & -> & M'). apply IH; [intros x I; apply H; right; exact I|exact M'].
Qed.

Lemma comments_moved k top toks : top_tokens k top -> token_rows toks ->
  comments (top ++ map (token_down k) toks) = map (fun y => y + k) (comments toks).
Proof.
  intros H (R & F). unfold comments. rewrite fold_left_app.
  destruct (top_loop k top H false None I) as (p' & ml' & -> & M). apply (moved_loop k toks true); auto.
  split; [left; reflexivity|]. split; [|reflexivity]. destruct ml' as [[a b]|]; [exact M|exact I].
Qed.

(** Excluded lines are lines of the source. *)
Lemma comments_positive toks : (forall t, In t toks -> 0 < tk_row t) -> forall l, In l (comments toks) -> 0 < l.
Proof.
  intros R. unfold comments.
  assert (G : forall toks, (forall t, In t toks -> 0 < tk_row t) -> forall s : cstate,
    let '(_, ml, nov) := s in (match ml with Some (a, _) => 0 < a | None => True end) -> (forall l, In l nov -> 0 < l) ->
    forall l, In l (snd (fold_left comment_step toks s)) -> 0 < l).
  { clear. induction toks as [|t r IH]; intros R [[p ml] nov] M N l; cbn [fold_left snd]; [apply N|].
    assert (Rt := R t (or_introl eq_refl)). specialize (IH (fun x I => R x (or_intror I)) (comment_step (p, ml, nov) t)).
    unfold comment_step in *. destruct (tk_type t); try (apply IH; assumption).
    - destruct (triple_quoted _); apply IH; assumption.
    - apply IH; [exact I|]. destruct (comment_marks _); [|exact N]. intros x J. unfold zset_add in J. destruct (zmem _ nov); [apply N, J|].
      apply in_app_or in J as [J|[<-|[]]]; [apply N, J|].
      assert (A : 0 < match ml with Some (a, b) => if b =? tk_row t then a else tk_row t | None => tk_row t end).
      { destruct ml as [[a b]|]; [destruct (b =? tk_row t)|]; assumption. }
      destruct (p || (tk_col t =? 0)); lia. }
  intros l. apply (G toks R (false, None, [])); [exact I|intros x []].
Qed.

(** ** Whole files *)
Section Whole.
  Variables (c : config) (major : Z) (path : string) (above : list string) (src : string) (v : pyval) (toks top : list token)
    (d d' : pyval -> string).
  Let k := Z.of_nat (List.length above).
  Hypothesis Ab : forall l, In l above -> one_line l.
  Hypothesis Top : top_tokens k top.
  Hypothesis Rows : token_rows toks.
  Let nov := if c_parse_comments c then comments toks else [].
  Let e := mkEnv c path (Some src) nov selfdoc d.
  Hypothesis Nodes : forall n, below n v -> placed n /\ proper n /\ (with_stmt n -> with_paren e (lineno n) -> with_paren_near e (lineno n)).

  Lemma detect_here : parser_detect major c (PTree v (inr toks)) = DTree v nov.
  Proof. unfold parser_detect, nov. destruct (c_parse_comments c); reflexivity. Qed.
  Lemma detect_there : parser_detect major c (PTree (relay (down k) v) (inr (top ++ map (token_down k) toks))) =
    DTree (relay (down k) v) (map (fun y => y + k) nov).
  Proof.
    unfold parser_detect, nov. destruct (c_parse_comments c); [|reflexivity]. rewrite (comments_moved k top toks Top Rows). reflexivity.
  Qed.
  Lemma laid_here : relaid e (mkEnv c path (Some (text_below above src)) (map (fun y => y + k) nov) selfdoc d') (down k) v.
  Proof.
    unfold e. apply relaid_below; auto. intros l I. unfold nov in I. destruct (c_parse_comments c); [|destruct I].
    apply (comments_positive toks (proj1 Rows)), I.
  Qed.
  Lemma individual_moved how : targets_given c -> path_ok c path = true ->
    moved_work k (snd (process_individual (mkHooks selfdoc d) major c path (FcSource src (PTree v (inr toks))) how))
      (snd (process_individual (mkHooks selfdoc d') major c path
              (FcSource (text_below above src) (PTree (relay (down k) v) (inr (top ++ map (token_down k) toks)))) how)).
  Proof.
    intros T P. unfold process_individual. rewrite detect_here, detect_there.
    pose proof (file_relaid d d' c path src (text_below above src) v nov _ how (down k) T P laid_here) as L.
    assert (Nv : forall h src0 v0 nv r, process_tree h c path src0 v0 nv how = Ok r -> r_novermin r = nv).
    { intros h src0 v0 nv r. unfold process_tree, make_visitor, py_assert. rewrite P. cbn [bindr].
      destruct how; try discriminate; try (intros [= <-]; reflexivity).
      all: destruct (tour _ v0) as [s|x]; try discriminate; cbn [bindr];
        destruct (minimum_versions _ s) as [[m t]|[]]; try discriminate; intros [= <-]; reflexivity. }
    assert (W : moved_work k (mapr Some (process_tree (mkHooks selfdoc d) c path src v nov how))
       (mapr Some (process_tree (mkHooks selfdoc d') c path (text_below above src) (relay (down k) v) (map (fun y => y + k) nov) how))).
    { pose proof (Nv (mkHooks selfdoc d) src v nov) as N1.
      pose proof (Nv (mkHooks selfdoc d') (text_below above src) (relay (down k) v) (map (fun y => y + k) nov)) as N2.
      destruct (process_tree _ c path src v nov how) as [a|x], (process_tree _ c path (text_below above src) _ _ how) as [b|y];
        cbn in L; try contradiction; cbn; [|exact L].
      destruct L as (L1 & L2 & L3 & L4). rewrite (N1 a eq_refl), (N2 b eq_refl). auto. }
    destruct how; try exact W. reflexivity.
  Qed.
End Whole.

Lemma moved_refl r : moved_work 0 r r.
Proof.
  destruct r as [[r|]|x]; cbn; auto. repeat split. symmetry. rewrite (map_ext _ (fun l => l)) by (intros; apply Z.add_0_r). apply map_id.
Qed.
Lemma individual_moved_file d major c path how x y : targets_given c -> path_ok c path = true -> moved_file x y -> exists k,
  moved_work k (snd (process_individual (mkHooks selfdoc d) major c path x how))
               (snd (process_individual (mkHooks selfdoc d) major c path y how)).
Proof.
  intros T P M. destruct M as [x|above src v toks top A Tp Rw N]; [exists 0; apply moved_refl|].
  exists (Z.of_nat (List.length above)). apply individual_moved; auto. intros n B. destruct (N n B) as (N1 & N2 & N3).
  split; [exact N1|]. split; [exact N2|]. intros W. apply (N3 W). reflexivity.
Qed.

Definition moved_any (r r' : res (option presult)) : Prop := exists k, moved_work k r r'.

Lemma loop_moved c rs rs' : Forall2 moved_any rs rs' -> forall a b, same_agg a b ->
  same_agg (fst (agg_loop c rs a)) (fst (agg_loop c rs' b)) /\ snd (agg_loop c rs a) = snd (agg_loop c rs' b).
Proof.
  intros F. induction F as [|r r' rs rs' [k W] F IH]; intros a b S; cbn [agg_loop]; [split; [exact S|reflexivity]|].
  destruct r as [[r|]|x], r' as [[r'|]|x']; cbn in W; try contradiction.
  - destruct W as (W1 & W2 & W4 & W5 & W3).
    assert (St : match agg_step c (Some r) a, agg_step c (Some r') b with
                 | Ok a', Ok b' => same_agg a' b' | Err x, Err x' => x = x' | _, _ => False end).
    { cbn [agg_step]. rewrite <- W2. destruct S as (S1 & S2 & S3 & S4 & S5 & S6). destruct (r_mins r) as [| |m].
      - cbn. repeat split; assumption.
      - reflexivity.
      - rewrite <- S1, <- S2, <- S3, <- S4, <- S5, <- S6, W3, map_length, <- W4, <- W5.
        destruct (combine2 _ None (a_mins a) m) as [m'|x]; [cbn; repeat split; reflexivity|].
        destruct x; cbn; repeat split; reflexivity. }
    destruct (agg_step c (Some r) a), (agg_step c (Some r') b); cbn in St; try contradiction.
    + apply IH, St.
    + subst. cbn. split; [exact S|reflexivity].
  - cbn [agg_step]. apply IH, S.
  - subst x'. cbn. split; [exact S|reflexivity].
Qed.

Lemma run_moved d major c file file' how processes paths :
  targets_given c -> (forall p, In p paths -> path_ok c p = true) ->
  (forall p, In p paths -> moved_file (file p) (file' p)) ->
  snd (process (mkHooks selfdoc d) major c file how processes paths) = snd (process (mkHooks selfdoc d) major c file' how processes paths).
Proof.
  intros T P N. unfold process.
  set (rs := map (fun p => snd (process_individual (mkHooks selfdoc d) major c p (file p) (how p))) paths).
  set (rs' := map (fun p => snd (process_individual (mkHooks selfdoc d) major c p (file' p) (how p))) paths).
  assert (W : Forall2 moved_any rs rs').
  { subst rs rs'. clear - T P N. induction paths as [|p r IH]; cbn [map]; constructor.
    - apply individual_moved_file; [exact T|apply P; left; reflexivity|apply N; left; reflexivity].
    - apply IH; intros q I; [apply P|apply N]; right; exact I. }
  assert (L : same_agg (fst (run_results c processes rs)) (fst (run_results c processes rs')) /\
              snd (run_results c processes rs) = snd (run_results c processes rs')).
  { assert (E : first_err rs = first_err rs').
    { clear - W. induction W as [|r r' rs rs' [k A] W IH]; [reflexivity|]. unfold first_err in *. cbn [fold_right].
      destruct r as [[r|]|x], r' as [[r'|]|x']; cbn in A; try contradiction; try exact IH. congruence. }
    assert (R : same_agg agg_init agg_init) by (repeat split).
    unfold run_results. rewrite <- E. destruct (processes =? 1).
    - destruct (first_err rs); [split; [exact R|reflexivity]|]. exact (loop_moved c rs rs' W _ _ R).
    - destruct (processes <? 1); [split; [exact R|reflexivity]|]. exact (loop_moved c rs rs' W _ _ R). }
  destruct (run_results c processes rs) as [a o], (run_results c processes rs') as [b o']. cbn [fst snd] in L.
  destruct L as [(L1 & L2 & L3 & L4 & L5 & L6) <-].
  assert (Q : summary_of a = summary_of b) by (unfold summary_of; rewrite L1, L2, L3, L4, L5, L6; reflexivity).
  destruct o as [x|]; [|cbn; rewrite Q; reflexivity]. destruct x; cbn; rewrite ?Q; reflexivity.
Qed.

Lemma detect_moved d d' major c path above src v toks top :
  let k := Z.of_nat (List.length above) in
  targets_given c -> path_ok c (api_path path) = true ->
  (forall l, In l above -> one_line l) -> top_tokens k top -> token_rows toks ->
  (forall n, below n v -> placed n /\ proper n /\ near_parens src n) ->
  same_mins (api_detect (mkHooks selfdoc d) major c path src (PTree v (inr toks)))
    (api_detect (mkHooks selfdoc d') major c path (text_below above src) (PTree (relay (down k) v) (inr (top ++ map (token_down k) toks)))).
Proof.
  intros k T P A Tp Rw N.
  assert (R : relaid (mkEnv c (api_path path) (Some src) (if c_parse_comments c then comments toks else []) selfdoc d)
    (mkEnv c (api_path path) (Some (text_below above src)) (map (fun y => y + k) (if c_parse_comments c then comments toks else [])) selfdoc d')
    (down k) v).
  { eapply laid_here; eauto. intros n B. destruct (N n B) as (N1 & N2 & N3).
    split; [exact N1|]. split; [exact N2|]. intros W. apply (N3 W). reflexivity. }
  eapply detect_relaid; [exact T|exact P| | |exact R].
  - unfold parser_detect. destruct (c_parse_comments c); reflexivity.
  - unfold parser_detect. destruct (c_parse_comments c); [|reflexivity]. rewrite (comments_moved _ top toks Tp Rw). reflexivity.
Qed.
