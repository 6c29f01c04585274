(** C88: settings for constructs that a source does not have do not matter. *)
From Verif Require Import PyBase PyLemmas Utility RulesData Rules Config Formats Paths AstKinds Ast State Visitor MinVersions Fstring
  Parser Processor Main Spec_Base Spec_Visitor Spec_Constructs Proof_Shapes Proof_Constructs Proof_Constructs_Runs
  Samples_Constructs.

(** Features for f-strings and unions, and the evaluation of annotations, change nothing of what is found in a file without
    them: not the verdict, not the text, not the hints, and not whether and how it fails. *)
Theorem c88_tree : forall h c c' path source v nov how, same_but_constructs c c' -> for_absent v c c' ->
  process_tree h c' path source v nov how = process_tree h c path source v nov how.
Proof. intros h c c' path source v nov how R A. exact (proj1 (file_same c c' (constructs_apart c c' R) h path source v nov how A)). Qed.
Print Assumptions c88_tree.

(** The API. *)
Theorem c88_detect : forall h major c c' path src v nov p, same_but_constructs c c' -> for_absent v c c' ->
  parser_detect major c p = DTree v nov -> api_detect h major c' path src p = api_detect h major c path src p.
Proof. intros h major c c' path src v nov p R A D. exact (detect_same c c' (constructs_apart c c' R) h major path src v nov p A D). Qed.
Print Assumptions c88_detect.

(** Each of the three settings. *)
Lemma mem_add n m l : m <> n -> mem m (set_add n l) = mem m l.
Proof.
  intros N. destruct (mem m l) eqn:E.
  - apply mem_In, set_add_In. right. apply mem_In, E.
  - destruct (mem m (set_add n l)) eqn:F; [|reflexivity]. apply mem_In, set_add_In in F as [F|F]; [contradiction|].
    apply mem_In in F. congruence.
Qed.
Theorem c88_self_documenting : forall h major c path src v nov p, (forall n, below n v -> ~ isa KJoinedStr n) ->
  parser_detect major c p = DTree v nov ->
  api_detect h major (fst (enable_feature "fstring-self-doc" c)) path src p = api_detect h major c path src p.
Proof.
  intros h major c path src v nov p N D. apply c88_detect with v nov; [destruct c; reflexivity| |exact D].
  constructor; [right; exact N|left|left; reflexivity]. apply mem_add. discriminate.
Qed.
Print Assumptions c88_self_documenting.
Theorem c88_union_types : forall h major c path src v nov p, (forall n, below n v -> ~ bars n) ->
  parser_detect major c p = DTree v nov ->
  api_detect h major (fst (enable_feature "union-types" c)) path src p = api_detect h major c path src p.
Proof.
  intros h major c path src v nov p N D. apply c88_detect with v nov; [destruct c; reflexivity| |exact D].
  constructor; [left|right; exact N|left; reflexivity]. apply mem_add. discriminate.
Qed.
Print Assumptions c88_union_types.
Theorem c88_annotations : forall h major c path src v nov p b,
  (forall n, below n v -> ~ annotated n) -> (forall n k, below n v -> subscripted n k -> ~ generic_name v k) ->
  parser_detect major c p = DTree v nov ->
  api_detect h major (w_eval_annotations b c) path src p = api_detect h major c path src p.
Proof.
  intros h major c path src v nov p b N S D. apply c88_detect with v nov; [destruct c; reflexivity| |exact D].
  constructor; [left; reflexivity|left; reflexivity|right; split; assumption].
Qed.
Print Assumptions c88_annotations.

(** Runs: what is printed, what is returned, and the final report with its tips and exit code. *)
Theorem c88_run : forall h major c c' file how processes paths, same_but_constructs c c' ->
  (forall p src q v nov, In p paths -> file p = FcSource src q -> parser_detect major c q = DTree v nov -> for_absent v c c') ->
  process h major c' file how processes paths = process h major c file how processes paths /\
  forall out s versions, process h major c file how processes paths = (out, Ok s) -> report c' versions s = report c versions s.
Proof.
  intros h major c c' file how processes paths R A. apply constructs_apart in R. split; [apply (process_same c c' R), A|].
  intros out s versions E. apply (report_same c c' R). exact (process_quiet c c' R h major file how paths A processes out s E).
Qed.
Print Assumptions c88_run.

(** Source: imports, one of them of [deque], a name for [list], and subscripts of other things. *)
Ltac ok := vm_compute; reflexivity.
Definition generic_names (v : pyval) : list string :=
  builtin_generic_annotation_types ++
  flat_map (fun n => map (fun a => as_str (attr "name" a)) (as_list (attr "names" n))) (filter (is_kind KImportFrom) (walk v)) ++
  flat_map (fun n => map (fun x => as_str (attr "id" x)) (attr "target" n :: as_list (attr "targets" n)))
           (filter (fun n => mem (as_str (attr "id" (attr "value" n))) builtin_generic_annotation_types) (walk v)).
Lemma generic_listed v k : generic_name v k -> In k (generic_names v).
Proof.
  unfold generic_names. intros [I|n a m B K M A <- _|n x t B K <- T X Kx <-]; [apply in_or_app; left; exact I|..]; apply in_or_app; right; apply in_or_app.
  - left. apply in_flat_map. exists n. split; [apply filter_In; split; [apply walk_below, B|exact K]|]. apply in_map_iff. exists a. auto.
  - right. apply in_flat_map. exists n. split; [apply filter_In; split; [apply walk_below, B|apply mem_In, T]|]. apply in_map_iff. exists x.
    split; [reflexivity|]. destruct X as [->|X]; [left; reflexivity|right; exact X].
Qed.
Lemma endswith_app a p : endswith a (p +++ a) = true.
Proof.
  induction p as [|c p IH].
  - change ("" +++ a) with a. destruct a; cbn [endswith]; rewrite String.eqb_refl; reflexivity.
  - change (String c p +++ a) with (String c (p +++ a)). cbn [endswith]. rewrite IH. destruct (String.eqb _ _); reflexivity.
Qed.
Definition subscripts_plain (v : pyval) : bool :=
  forallb (fun n => negb (is_kind KSubscript n) ||
    (let x := attr "value" n in
     (negb (is_kind KName x) || negb (mem (as_str (attr "id" x)) (generic_names v))) &&
     (negb (is_kind KAttribute x) || negb (existsb (endswith (as_str (attr "attr" x))) (generic_names v))))) (walk v).
Lemma subscripts_ok v : subscripts_plain v = true -> forall n k, below n v -> subscripted n k -> ~ generic_name v k.
Proof.
  intros C n k B [K S] G. apply generic_listed in G. unfold subscripts_plain in C. rewrite forallb_forall in C. apply walk_below in B.
  specialize (C n B). unfold isa in K. rewrite K in C. apply andb_true_iff in C as [C1 C2]. destruct S as [[N E]|[N [p E]]]; unfold isa in N.
  - rewrite N, E in C1. apply mem_In in G. rewrite G in C1. discriminate.
  - rewrite N in C2. assert (X : existsb (endswith (as_str (attr "attr" (attr "value" n)))) (generic_names v) = true); [|rewrite X in C2; discriminate].
    apply existsb_exists. exists k. split; [exact G|]. rewrite E. apply endswith_app.
Qed.
Definition no_dump (_ : pyval) : string := "".
Definition detected_with (c : config) (src : string) (v : pyval) (t : list token) : res mins :=
  api_detect (mkHooks selfdoc no_dump) 3 c None src (PTree v (inr t)).
Example c88_case :
  let c := default_config 1 in let c' := fst (enable_feature "fstring-self-doc" (fst (enable_feature "union-types" (w_eval_annotations true c)))) in
  same_but_constructs c c' /\ for_absent tree_plain c c' /\ (exists nov, parser_detect 3 c (PTree tree_plain (inr tokens_plain)) = DTree tree_plain nov) /\
  has_feature c' "union-types" = true /\ has_feature c "union-types" = false /\ c_eval_annotations c = false /\
  generic_name tree_plain "T" /\ generic_name tree_plain "deque" /\
  detected_with c src_plain tree_plain tokens_plain = Ok (Some (2, 7), Some (3, 2)) /\
  detected_with c' src_plain tree_plain tokens_plain = Ok (Some (2, 7), Some (3, 2)).
Proof.
  cbv zeta.
  assert (W : forall (Q : pyval -> Prop) (q : pyval -> bool), (forall n, Q n -> q n = true) -> existsb q (walk tree_plain) = false -> forall n, below n tree_plain -> ~ Q n).
  { intros Q q H E n B N. apply H in N. apply walk_below in B. assert (X : existsb q (walk tree_plain) = true) by (apply existsb_exists; eauto). congruence. }
  split; [ok|]. split; [|split; [eexists; ok|split; [ok|split; [ok|split; [ok|split; [|split; [|split; ok]]]]]]].
  - constructor; right.
    + apply (W _ (is_kind KJoinedStr)); [intros n N; exact N|ok].
    + apply (W _ (fun n => (is_kind KBinOp n || is_kind KAugAssign n) && is_kind KBitOr (attr "op" n))); [|ok].
      intros n [[K|K] O]; unfold isa in *; rewrite K, O; [reflexivity|]. rewrite orb_true_r. reflexivity.
    + split; [|apply subscripts_ok; ok].
      apply (W _ (fun n => is_kind KAnnAssign n || negb (is_none (attr "returns" n)) || negb (is_none (attr "annotation" n)))); [|ok].
      intros n [K|[[_ R]|A]].
      * unfold isa in K. rewrite K. reflexivity.
      * destruct (attr "returns" n); try contradiction; rewrite ?orb_true_r; reflexivity.
      * destruct (attr "annotation" n); try contradiction; rewrite ?orb_true_r; reflexivity.
  - assert (E : exists n, In n (walk tree_plain) /\ is_kind KName (attr "value" n) && String.eqb (as_str (attr "id" (attr "value" n))) "list" = true).
    { apply existsb_exists. ok. }
    destruct E as (n & I & E). apply andb_true_iff in E as [K E]. apply String.eqb_eq in E.
    assert (X : existsb (fun x => is_kind KName x && String.eqb (as_str (attr "id" x)) "T") (as_list (attr "targets" n)) = true).
    { assert (A : forallb (fun n => negb (is_kind KName (attr "value" n) && String.eqb (as_str (attr "id" (attr "value" n))) "list") ||
                    existsb (fun x => is_kind KName x && String.eqb (as_str (attr "id" x)) "T") (as_list (attr "targets" n))) (walk tree_plain) = true) by ok.
      rewrite forallb_forall in A. specialize (A n I). rewrite K, E in A. exact A. }
    apply existsb_exists in X as (x & Ix & X). apply andb_true_iff in X as [Kx Ex]. apply String.eqb_eq in Ex.
    refine (gn_given _ _ n x "list" _ K E _ (or_intror Ix) Kx Ex); [apply walk_below, I|apply mem_In; ok].
  - assert (E : exists n, In n (walk tree_plain) /\ is_kind KImportFrom n = true) by (apply existsb_exists; ok).
    destruct E as (n & I & K).
    assert (A : forallb (fun n => negb (is_kind KImportFrom n) || (match attr "module" n with VStr m => String.eqb m "collections" | _ => false end &&
                  existsb (fun a => String.eqb (as_str (attr "name" a)) "deque") (as_list (attr "names" n)))) (walk tree_plain) = true) by ok.
    rewrite forallb_forall in A. specialize (A n I). rewrite K in A. apply andb_true_iff in A as [M A]. apply existsb_exists in A as (a & Ia & A).
    apply String.eqb_eq in A. destruct (attr "module" n) eqn:Em; try discriminate M. apply String.eqb_eq in M as ->.
    refine (gn_import _ _ n a "collections" _ K Em Ia A _); [apply walk_below, I|apply mem_In; ok].
Qed.

(** Where the constructs are there, the settings matter: [int | str], [f'{a=}'], and [T = dict; x = T[str, int]], which
    has no annotation but subscripts a type. *)
Example c88_there :
  let c := default_config 1 in
  (detected_with c src_bar tree_bar tokens_bar, detected_with (fst (enable_feature "union-types" c)) src_bar tree_bar tokens_bar) =
    (Ok (Some (0, 0), Some (0, 0)), Ok (None, Some (3, 10))) /\
  (detected_with c src_documenting tree_documenting tokens_documenting,
   detected_with (fst (enable_feature "fstring-self-doc" c)) src_documenting tree_documenting tokens_documenting) =
    (Ok (None, Some (3, 6)), Ok (None, Some (3, 8))) /\
  (detected_with c src_subscript tree_subscript tokens_subscript,
   detected_with (w_eval_annotations true c) src_subscript tree_subscript tokens_subscript) =
    (Ok (Some (0, 0), Some (0, 0)), Ok (None, Some (3, 9))).
Proof. split; [ok|split; ok]. Qed.
