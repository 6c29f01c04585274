(** C44: how the analysis of a parsed file can end. *)
From Verif Require Import PyBase PyLemmas Utility RulesData Rules Config Formats Paths AstKinds Ast State Visitor MinVersions
  Parser Processor Spec_Base Spec_Visitor Spec_MinVersions Spec_Crash Proof_Shapes Proof_MinVersions Proof_Scopes Proof_Crash
  Prop_Visitor Prop_MinVersions Trees.

(** ** C44 *)
(** A tour that fails does so in one of three known places of the tree, or for lack of a target. *)
Theorem c44_tour : forall e v x, tour e v = Err x ->
  (x = IndexError /\ no_targets e) \/ exists n, below n v /\ crashes e n x.
Proof. exact tour_crash. Qed.
Print Assumptions c44_tour.

(** The trees whose analysis finishes: none of those places (lines excluded by a comment aside), and no
    codecs function given an encoding that is a literal but not a text. *)
Definition sound_tree (e : env) (v : pyval) : Prop :=
  (forall n, below n v -> counted e n -> ~ bad_format n /\ ~ bad_annotation n) /\
  (In "fstring-self-doc" (c_features (e_cfg e)) ->
     forall n man, below n v -> isa KJoinedStr n -> exists b, e_selfdoc e man n = Ok b) /\
  (forall n c, below n v ->
     encoding_use (fun x p => exists i, below i v /\ imports_from i p x) (fun a m => exists i, below i v /\ aliases i a m) n c ->
     exists t, c = VStr t).

Lemma sound_tour e v : targets_given (e_cfg e) -> sound_tree e v -> exists s, tour e v = Ok s /\ str_encodings s.
Proof.
  intros T (A & B & C). destruct (tour e v) as [s|x] eqn:E.
  - exists s. split; [reflexivity|]. intros c I.
    destruct (tour_texts e v s E) as (_ & _ & _ & _ & X & _). destruct (X c I) as (n & N & U). exact (C n c N U).
  - exfalso. destruct (c44_tour _ _ _ E) as [(_ & O & Z)|(n & N & K)]; [exact (T O Z)|].
    destruct K as [K L|K L|man x K F G].
    + exact (proj1 (A n N L) K).
    + exact (proj2 (A n N L) K).
    + destruct (B F n man N K) as (b & Y). congruence.
Qed.

(** A verdict or an incompatibility for every other tree: on the command line ... *)
Theorem c44_file_partial : forall h c path source node nov,
  path_ok c path = true -> targets_given c ->
  sound_tree (mkEnv c path (Some source) nov (h_selfdoc h) (h_dump h)) node ->
  exists r, process_tree h c path source node nov EndDone = Ok r /\ ((exists m, r_mins r = MVers m) \/ r_mins r = MNone).
Proof.
  intros h c path source node nov P T S. unfold process_tree, make_visitor, py_assert. rewrite P. cbn [bindr].
  match type of S with sound_tree ?e _ => set (e0 := e) in * end.
  destruct (sound_tour e0 _ T S) as (s & E & En). rewrite E. cbn [bindr].
  destruct (total e0 s T En) as [(m & s' & M)|(msg & M)]; rewrite M; eexists; (split; [reflexivity|]); cbn; eauto.
Qed.
Print Assumptions c44_file_partial.

(** ... and through the API, where only the incompatibility is an exception. *)
Theorem c44_detect_partial : forall h major c path source node,
  c_parse_comments c = false -> path_ok c (api_path path) = true -> targets_given c ->
  sound_tree (mkEnv c (api_path path) (Some source) [] (h_selfdoc h) (h_dump h)) node -> forall toks,
  (exists m, api_detect h major c path source (PTree node toks) = Ok m) \/
  exists msg, api_detect h major c path source (PTree node toks) = Err (InvalidVersion msg).
Proof.
  intros h major c path source node PC P T S toks. unfold api_detect, api_visit, parser_detect, make_visitor, py_assert.
  rewrite PC, P. cbn [bindr].
  match type of S with sound_tree ?e _ => set (e0 := e) in * end.
  destruct (sound_tour e0 _ T S) as (s & E & En). rewrite E. cbn [bindr].
  destruct (total e0 s T En) as [(m & s' & M)|(msg & M)]; rewrite M; cbn [bindr snd].
  - left. destruct (c45_same_versions _ _ _ _ M) as (s'' & M'). rewrite M'. cbn. eauto.
  - right. eauto.
Qed.
Print Assumptions c44_detect_partial.

(** With comments too. *)
Theorem c44_detect_comments_partial : forall h major c path source node l,
  c_parse_comments c = true -> path_ok c (api_path path) = true -> targets_given c ->
  sound_tree (mkEnv c (api_path path) (Some source) (comments l) (h_selfdoc h) (h_dump h)) node ->
  (exists m, api_detect h major c path source (PTree node (inr l)) = Ok m) \/
  exists msg, api_detect h major c path source (PTree node (inr l)) = Err (InvalidVersion msg).
Proof.
  intros h major c path source node l PC P T S. unfold api_detect, api_visit, parser_detect, make_visitor, py_assert.
  rewrite PC, P. cbn [bindr].
  match type of S with sound_tree ?e _ => set (e0 := e) in * end.
  destruct (sound_tour e0 _ T S) as (s & E & En). rewrite E. cbn [bindr].
  destruct (total e0 s T En) as [(m & s' & M)|(msg & M)]; rewrite M; cbn [bindr snd].
  - left. destruct (c45_same_versions _ _ _ _ M) as (s'' & M'). rewrite M'. cbn. eauto.
  - right. eauto.
Qed.
Print Assumptions c44_detect_comments_partial.

(** A concrete case: a source that calls strftime and a codecs function. *)
Lemma attr_below n f v : below n (attr f v) -> below n v.
Proof.
  assert (N : ~ below n VNone) by (intros B; inversion B; subst; discriminate).
  destruct v as [| | | | | | | | |k u p fs]; try (intros B; contradiction (N B)).
  unfold attr, fld. cbn [fields]. destruct (assoc f fs) as [x|] eqn:E; [|intros B; contradiction (N B)].
  intros B. exact (below_field n k u p fs f x (assoc_In _ _ _ E) B).
Qed.
Lemma item_below n a f v : In a (items f v) -> below n a -> below n v.
Proof.
  intros I B. apply (attr_below n f). unfold items in I. destruct (attr f v); try destruct I; exact (below_item n _ _ I B).
Qed.

Definition text_or_no_literal (v : pyval) : bool :=
  match const_val v with Some (VStr _) | None => true | _ => false end.
Definition harmless (n : pyval) : bool :=
  match const_val n with Some (VComplex _) => false | _ => true end &&
  (negb (is_kind KCall n) ||
   (forallb text_or_no_literal (items "args" n) && forallb (fun w => text_or_no_literal (attr "value" w)) (items "keywords" n))).
Lemma constant_text c a : constant c a -> text_or_no_literal a = true -> exists t, c = VStr t.
Proof.
  unfold text_or_no_literal. intros [K <-]. destruct a as [| | | | | | | | |k u p fs]; try discriminate.
  destruct k; try discriminate. cbn. change (fld "value" fs) with (attr "value" (VNode KConstant u p fs)).
  destruct (attr "value" (VNode KConstant u p fs)); try discriminate. eauto.
Qed.
Lemma harmless_sound e v : ~ In "fstring-self-doc" (c_features (e_cfg e)) -> forallb harmless (walk v) = true -> sound_tree e v.
Proof.
  intros F H. rewrite forallb_forall in H.
  assert (A : forall n, below n v -> isa KCall n ->
    forallb text_or_no_literal (items "args" n) = true /\
    forallb (fun w => text_or_no_literal (attr "value" w)) (items "keywords" n) = true).
  { intros n B K. pose proof (H n (proj2 (walk_below v n) B)) as X. unfold harmless in X. unfold isa in K. rewrite K in X.
    apply andb_prop in X as [_ X]. exact (andb_prop _ _ X). }
  split; [|split].
  - intros n B _. split.
    + intros (K & _ & _ & a & c & I & C & N). destruct (A n B K) as [X _]. rewrite forallb_forall in X.
      destruct (constant_text _ _ C (X a I)) as (t & ->). exact (N t eq_refl).
    + intros (_ & _ & a & m & t & I & M & [K V]).
      pose proof (H m (proj2 (walk_below v m) (below_trans m n v
        (attr_below m "args" n (item_below m a "args" _ I (attr_below m "annotation" a M))) B))) as X.
      unfold harmless in X. destruct m as [| | | | | | | | |k u p fs]; try discriminate. destruct k; try discriminate.
      unfold attr in V. cbn [fields] in V. cbn [const_val] in X. rewrite V in X. discriminate.
  - intros X. contradiction.
  - intros n c B (f & l & [K _] & _ & [(i & a & _ & N & C)|(w & k & I & _ & _ & C)]); destruct (A n B K) as [X Y].
    + rewrite forallb_forall in X. exact (constant_text _ _ C (X a (nth_error_In _ _ N))).
    + rewrite forallb_forall in Y. exact (constant_text _ _ C (Y w I)).
Qed.

Example c44_case : targets_given (e_cfg env_default) /\ sound_tree env_default tree_texts /\
  (exists r, process_tree (mkHooks (fun _ _ => Ok false) (fun _ => "")) (default_config 1) "a.py" text_texts tree_texts [] EndDone
     = Ok r /\ r_mins r = MVers (None, Some (3, 8))) /\ exists a, In a (walk tree_texts) /\ isa KCall a.
Proof.
  split; [intros H; discriminate|]. split; [apply harmless_sound; [intros H; vm_compute in H; tauto|run]|].
  split.
  - exists (match process_tree (mkHooks (fun _ _ => Ok false) (fun _ => "")) (default_config 1) "a.py" text_texts tree_texts [] EndDone
      with Ok r => r | Err _ => mkRes "" MNone "" [] [] false end). split; run.
  - assert (E : existsb (is_kind KCall) (walk tree_texts) = true) by run.
    apply existsb_exists in E as (a & I & K). exists a. split; [exact I|exact K].
Qed.

(** The property itself is false: x.strftime(5), def f(x: 1j), codecs.open('f', encoding=None). *)
Definition never_crashes (e : env) (v : pyval) : Prop :=
  exists s, tour e v = Ok s /\
  ((exists m s', minimum_versions e s = Ok (m, s')) \/ exists msg, minimum_versions e s = Err (InvalidVersion msg)).

Lemma crash_ends :
  tour env_default tree_crash_format = Err TypeError /\
  tour env_default tree_crash_annotation = Err IndexError /\
  minimum_versions env_default (ended (tour env_default tree_crash_encoding)) = Err AttributeError /\
  exists s, tour env_default tree_crash_encoding = Ok s.
Proof. split; [run|]. split; [run|]. split; [run|]. exists (ended (tour env_default tree_crash_encoding)). run. Qed.
Lemma tour_fails e v x : tour e v = Err x -> ~ never_crashes e v.
Proof. intros A (s & E & _). congruence. Qed.
Lemma versions_fail e v : minimum_versions e (ended (tour e v)) = Err AttributeError -> ~ never_crashes e v.
Proof. intros C (s & E & [(m & s' & M)|(msg & M)]); rewrite E in C; cbn [ended] in C; congruence. Qed.
Theorem c44_refuted :
  ~ never_crashes env_default tree_crash_format /\
  ~ never_crashes env_default tree_crash_annotation /\
  ~ never_crashes env_default tree_crash_encoding.
Proof.
  destruct crash_ends as (A & B & C & _). split; [|split].
  - exact (tour_fails _ _ _ A).
  - exact (tour_fails _ _ _ B).
  - exact (versions_fail _ _ C).
Qed.
Print Assumptions c44_refuted.
