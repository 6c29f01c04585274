(** C77: where the code stands does not matter. *)
From Verif Require Import PyBase PyLemmas Utility RulesData Rules Config Formats Paths AstKinds Ast State Visitor MinVersions Fstring
  Parser Processor Spec_Base Spec_Parser Spec_Visitor Spec_Seen Spec_MinVersions Spec_Same Spec_Layout Proof_Tour Proof_Verdict Proof_Shapes Proof_Moved
  Samples_Layout Prop_Visitor.
From Verif Require Spec_Detection Proof_Parser Proof_Forms.

(** The same code at other positions, in another text, with comments on other lines: the same verdict, the same hints,
    or the same failure, as long as comments exclude the same parts and the text shows [except*] and [with (] at the same
    parts. *)
Theorem c77_tree : forall d d' c path src src' v nov nov' how f, targets_given c -> path_ok c path = true ->
  relaid (mkEnv c path (Some src) nov selfdoc d) (mkEnv c path (Some src') nov' selfdoc d') f v ->
  laid_result (process_tree (mkHooks selfdoc d) c path src v nov how)
              (process_tree (mkHooks selfdoc d') c path src' (relay f v) nov' how).
Proof. exact file_relaid. Qed.
Print Assumptions c77_tree.

(** The same through the API. *)
Theorem c77_detect : forall d d' major c path src src' v nov nov' p p' f,
  targets_given c -> path_ok c (api_path path) = true ->
  parser_detect major c p = DTree v nov -> parser_detect major c p' = DTree (relay f v) nov' ->
  relaid (mkEnv c (api_path path) (Some src) nov selfdoc d) (mkEnv c (api_path path) (Some src') nov' selfdoc d') f v ->
  same_mins (api_detect (mkHooks selfdoc d) major c path src p) (api_detect (mkHooks selfdoc d') major c path src' p').
Proof. exact detect_relaid. Qed.
Print Assumptions c77_detect.

(** Comments and empty lines on top of a source move the lines that its comments exclude, and nothing else. *)
Theorem c77_comments : forall k top toks, top_tokens k top -> token_rows toks ->
  comments (top ++ map (token_down k) toks) = map (fun y => y + k) (comments toks).
Proof. exact comments_moved. Qed.
Print Assumptions c77_comments.

(** So they change nothing in the result of a file, and in what the API answers. Missing: [with] with its parenthesis more
    than ten lines away, see below; a source that starts with an indented comment, see [c32_first_line_refuted]. *)
Theorem c77_top_partial : forall d d' major c path above src v toks top how,
  let k := Z.of_nat (List.length above) in
  targets_given c -> path_ok c path = true ->
  (forall l, In l above -> one_line l) -> top_tokens k top -> token_rows toks ->
  (forall n, below n v -> placed n /\ proper n /\ near_parens src n) ->
  moved_work k (snd (process_individual (mkHooks selfdoc d) major c path (FcSource src (PTree v (inr toks))) how))
    (snd (process_individual (mkHooks selfdoc d') major c path
            (FcSource (text_below above src) (PTree (relay (down k) v) (inr (top ++ map (token_down k) toks)))) how)).
Proof.
  intros d d' major c path above src v toks top how k T P A Tp R N. apply individual_moved; auto.
  intros n B. destruct (N n B) as (N1 & N2 & N3). split; [exact N1|]. split; [exact N2|]. intros W. apply (N3 W). reflexivity.
Qed.
Print Assumptions c77_top_partial.

Theorem c77_api_partial : forall d d' major c path above src v toks top,
  let k := Z.of_nat (List.length above) in
  targets_given c -> path_ok c (api_path path) = true ->
  (forall l, In l above -> one_line l) -> top_tokens k top -> token_rows toks ->
  (forall n, below n v -> placed n /\ proper n /\ near_parens src n) ->
  same_mins (api_detect (mkHooks selfdoc d) major c path src (PTree v (inr toks)))
    (api_detect (mkHooks selfdoc d') major c path (text_below above src) (PTree (relay (down k) v) (inr (top ++ map (token_down k) toks)))).
Proof. exact detect_moved. Qed.
Print Assumptions c77_api_partial.

(** Runs: with such lines on top of any of the files, the same summary. *)
Theorem c77_run_partial : forall d major c file file' how processes paths, targets_given c ->
  (forall p, In p paths -> path_ok c p = true) -> (forall p, In p paths -> moved_file (file p) (file' p)) ->
  snd (process (mkHooks selfdoc d) major c file how processes paths) = snd (process (mkHooks selfdoc d) major c file' how processes paths).
Proof. exact run_moved. Qed.
Print Assumptions c77_run_partial.

(** Source: [import argparse] with a comment that excludes it; a decorated function with a parenthesized [with] around an
    import that is excluded; [except*]; [print(f'{f=}')]. On top of it: a comment, an empty comment, an empty line. *)
Definition tree_of (p : parsed) : pyval := match p with PTree v _ => v | _ => VNone end.
Definition tokens_of (p : parsed) : list token := match p with PTree _ (inr l) => l | _ => [] end.
Definition header : list string := ["# Copyright"; "#"; ""].
Definition no_dump (_ : pyval) : string := "".
Definition placedb (n : pyval) : bool :=
  match pos_of n with
  | Some (l, _) => 0 <? l
  | None => negb (is_kind KExceptHandler n) && negb (is_kind KWith n) && negb (is_kind KAsyncWith n)
  end.
Definition properb (n : pyval) : bool :=
  (negb (is_kind KConstant n) || forallb (fun fx => negb (is_node (snd fx)) && match as_list (snd fx) with [] => true | _ => false end) (fields n)) &&
  forallb is_node (items "decorator_list" n).
Lemma isa_kind k n : isa k n <-> is_kind k n = true.
Proof. reflexivity. Qed.
Lemma placedb_ok n : placedb n = true -> placed n.
Proof.
  unfold placedb, placed. destruct (pos_of n) as [[l c]|]; [apply Z.ltb_lt|]. intros H. apply andb_true_iff in H as [H W'].
  apply andb_true_iff in H as [H W]. unfold with_stmt. rewrite !isa_kind. destruct (is_kind KExceptHandler n), (is_kind KWith n), (is_kind KAsyncWith n);
    cbn in *; try discriminate. intuition discriminate.
Qed.
Lemma properb_ok n : properb n = true -> proper n.
Proof.
  unfold properb, proper, plain_constant. intros H. apply andb_true_iff in H as [H D]. rewrite forallb_forall in D. split; [|exact D].
  rewrite isa_kind. intros K f x I. rewrite K in H. cbn in H. rewrite forallb_forall in H. specialize (H _ I). cbn in H.
  apply andb_true_iff in H as [H L]. destruct (is_node x); [discriminate|]. destruct (as_list x); [auto|discriminate].
Qed.
Ltac one_char := let a := fresh in let c := fresh in let b := fresh in let E := fresh in
  intros a c b E; repeat (destruct a as [|? a]; [injection E as <- _; auto|cbn in E; injection E as _ E]);
  destruct a; discriminate.
Lemma with_layout e : e_source e = Some src_layout -> with_paren_near e 4.
Proof.
  intros E. exists src_layout. eexists _, _, "  ", " ", _. split; [exact E|]. split; [lia|]. split; [vm_compute; reflexivity|].
  split; [vm_compute; reflexivity|]. split; [one_char|vm_compute; lia].
Qed.
Lemma nodes_ok v : forallb (fun n => placedb n && properb n) (walk v) = true -> forall n, below n v -> placed n /\ proper n.
Proof.
  intros H n B. rewrite forallb_forall in H. apply walk_below in B. specialize (H n B). apply andb_true_iff in H as [P R].
  split; [apply placedb_ok, P|apply properb_ok, R].
Qed.
Definition with_lines (v : pyval) : list Z := map lineno (filter (fun n => is_kind KWith n || is_kind KAsyncWith n) (walk v)).
Lemma with_lines_ok v n : below n v -> with_stmt n -> In (lineno n) (with_lines v).
Proof.
  intros B W. apply in_map, filter_In. split; [apply walk_below, B|]. destruct W as [W|W]; apply isa_kind in W; rewrite W; [reflexivity|apply orb_true_r].
Qed.
Definition row_okb (k : Z) (t : token) : bool :=
  (tk_row t <=? k) && (tk_end t <=? k) &&
  match tk_type t with TkComment => match tk_string t with String c _ => (c =? "#")%char | _ => false end && negb (comment_marks (tk_string t)) | _ => true end.
Lemma rows_ok k top : forallb (row_okb k) top = true -> top_tokens k top.
Proof.
  intros H t I. rewrite forallb_forall in H. specialize (H t I). unfold row_okb in H.
  apply andb_true_iff in H as [H M]. apply andb_true_iff in H as [H E]. apply Z.leb_le in H, E. split; [exact H|]. split; [exact E|].
  intros T. rewrite T in M. apply andb_true_iff in M as [S M]. assert (B : Spec_Detection.begins "#" (tk_string t)) 
    by (destruct (tk_string t) as [|a r]; [discriminate|]; apply Ascii.eqb_eq in S as ->; exists r; reflexivity).
  split; [exact B|]. intros K. apply (Proof_Parser.comment_marks_iff _ B) in K. rewrite K in M. discriminate.
Qed.
Definition token_rowsb (toks : list token) : bool :=
  forallb (fun t => 0 <? tk_row t) toks && match toks with t :: _ => tk_col t =? 0 | [] => true end.
Lemma token_rows_ok toks : token_rowsb toks = true -> token_rows toks.
Proof.
  intros H. apply andb_true_iff in H as [H F]. rewrite forallb_forall in H. split; [intros t I; apply Z.ltb_lt, H, I|].
  destruct toks; [exact I|]. intros _. apply Z.eqb_eq, F.
Qed.
Ltac ok := vm_compute; reflexivity.
Definition result_of (src : string) (p : parsed) : res (option presult) :=
  snd (process_individual (mkHooks selfdoc no_dump) 3 (default_config 1) "a.py" (FcSource src p) EndDone).
Definition mins_of (r : res (option presult)) : option mins :=
  match r with Ok (Some r) => match r_mins r with MVers m => Some m | _ => None end | _ => None end.
Definition lines_of (r : res (option presult)) : list Z := match r with Ok (Some r) => r_novermin r | _ => [] end.
Example c77_case :
  let v := tree_of sample_layout in let toks := tokens_of sample_layout in
  let top := firstn 5 (tokens_of sample_layout_down) in
  let c := default_config 1 in
  targets_given c /\ path_ok c "a.py" = true /\ (forall l, In l header -> one_line l) /\ top_tokens 3 top /\ token_rows toks /\
  (forall n, below n v -> placed n /\ proper n /\ near_parens src_layout n) /\
  sample_layout = PTree v (inr toks) /\
  sample_layout_down = PTree (relay (down 3) v) (inr (top ++ map (token_down 3) toks)) /\
  src_layout_down = text_below header src_layout /\
  mins_of (result_of src_layout sample_layout) = Some (None, Some (3, 11)) /\ lines_of (result_of src_layout sample_layout) = [1; 6] /\
  mins_of (result_of src_layout_down sample_layout_down) = Some (None, Some (3, 11)) /\
  lines_of (result_of src_layout_down sample_layout_down) = [4; 9].
Proof.
  cbv zeta. split; [discriminate|]. split; [ok|]. split. { intros l [<-|[<-|[<-|[]]]]; one_char. }
  split; [apply rows_ok; ok|]. split; [apply token_rows_ok; ok|].
  split. { intros n B. destruct (nodes_ok (tree_of sample_layout) ltac:(ok) n B) as [P R]. split; [exact P|]. split; [exact R|].
    intros W e E _. pose proof (with_lines_ok _ n B W) as I.
    replace (with_lines (tree_of sample_layout)) with [4] in I by ok. destruct I as [<-|[]]. apply with_layout, E. }
  split; [ok|]. split; [ok|]. split; [ok|]. split; [ok|]. split; [ok|]. split; ok.
Qed.

(** The same source with other blanks, other line breaks and another comment: [with \ ] and [(] on two lines,
    [except  *], statements on the lines of [try:] and [except* E:]. *)
Definition elsewhere (v' : pyval) (u : N) (p : option (Z * Z)) : option (Z * Z) :=
  match find (fun n => N.eqb (uid_of n) u) (walk v') with Some n => pos_of n | None => p end.
Definition stays (e e' : env) (f : N -> option (Z * Z) -> option (Z * Z)) (n : pyval) : bool :=
  let n' := relay f n in
  Bool.eqb (zmem (lineno n) (e_nolines e)) (zmem (lineno n') (e_nolines e')) &&
  Bool.eqb (is_except_star e (lineno n) (col_offset n)) (is_except_star e' (lineno n') (col_offset n')).
Lemma star_iff e l c : is_except_star e l c = true <-> except_star e l c.
Proof. split; [apply except_star_text|apply Proof_Forms.text_except_star]. Qed.
Lemma counted_zmem e n : counted e n <-> zmem (lineno n) (e_nolines e) = false.
Proof.
  unfold counted, zmem. destruct (existsb _ _) eqn:E; split; try discriminate; auto; intros H.
  - exfalso. apply H. apply existsb_exists in E as (x & I & X). apply Z.eqb_eq in X as ->. exact I.
  - intros I. rewrite <- not_true_iff_false in E. apply E, existsb_exists. exists (lineno n).
    split; [exact I|apply Z.eqb_refl].
Qed.
Lemma stays_ok e e' f v : forallb (stays e e' f) (walk v) = true -> forallb (fun n => placedb n && properb n) (walk v) = true ->
  (forall n, below n v -> with_stmt n -> with_paren_near e (lineno n) /\ with_paren_near e' (lineno (relay f n))) -> relaid e e' f v.
Proof.
  intros H Pr W n B. split; [|apply (nodes_ok v Pr n B)]. pose proof (W n B) as Wn. rewrite forallb_forall in H. apply walk_below in B. specialize (H n B).
  apply andb_true_iff in H as [C X]. apply eqb_prop in C, X. constructor.
  - rewrite !counted_zmem, C. reflexivity.
  - intros _. rewrite <- !star_iff, X. reflexivity.
  - intros K. left. exact (Wn K).
Qed.
Lemma with_wide e : e_source e = Some src_wide -> with_paren_near e 8.
Proof.
  intros E. exists src_wide. eexists _, _, "    ", (" \" +++ nl +++ "  "), _. split; [exact E|]. split; [lia|]. split; [vm_compute; reflexivity|].
  split; [vm_compute; reflexivity|]. split; [one_char|vm_compute; lia].
Qed.
Definition env_at (src : string) (p : parsed) : env :=
  mkEnv (default_config 1) "a.py" (Some src) (comments (tokens_of p)) selfdoc no_dump.
Example c77_wide_case :
  let f := elsewhere (tree_of sample_wide) in let v := tree_of sample_layout in
  tree_of sample_wide = relay f v /\ tree_of sample_wide <> v /\
  relaid (env_at src_layout sample_layout) (env_at src_wide sample_wide) f v /\
  mins_of (result_of src_wide sample_wide) = Some (None, Some (3, 11)) /\ lines_of (result_of src_wide sample_wide) = [2; 10].
Proof.
  cbv zeta. split; [ok|]. split; [intros E; vm_compute in E; discriminate|]. split.
  { apply stays_ok; [ok|ok|]. intros n B W.
    assert (L : lineno n = 4 /\ lineno (relay (elsewhere (tree_of sample_wide)) n) = 8).
    { apply walk_below in B. assert (F : In n (filter (fun n => is_kind KWith n || is_kind KAsyncWith n) (walk (tree_of sample_layout)))).
      { apply filter_In. split; [exact B|]. destruct W as [W|W]; apply isa_kind in W; rewrite W; [reflexivity|apply orb_true_r]. }
      assert (A : forallb (fun n => (lineno n =? 4) && (lineno (relay (elsewhere (tree_of sample_wide)) n) =? 8))
        (filter (fun n => is_kind KWith n || is_kind KAsyncWith n) (walk (tree_of sample_layout))) = true) by ok.
      rewrite forallb_forall in A. specialize (A n F). apply andb_true_iff in A as [A A']. split; apply Z.eqb_eq; assumption. }
    destruct L as [-> ->]. split; [apply with_layout; reflexivity|apply with_wide; reflexivity]. }
  split; ok.
Qed.

(** A [with] is searched for its parenthesis in as many lines as its line number and ten more. Source: [with], twelve
    times a backslash at the end of a line, [(a as x, b as y): pass]; and the same below an empty line. *)
Theorem c77_top_refuted : exists d major c path above src v toks top,
  let k := Z.of_nat (List.length above) in
  targets_given c /\ path_ok c path = true /\ (forall l, In l above -> one_line l) /\ top_tokens k top /\ token_rows toks /\
  (forall n, below n v -> placed n /\ proper n) /\
  ~ moved_work k (snd (process_individual (mkHooks selfdoc d) major c path (FcSource src (PTree v (inr toks))) EndDone))
    (snd (process_individual (mkHooks selfdoc d) major c path
            (FcSource (text_below above src) (PTree (relay (down k) v) (inr (top ++ map (token_down k) toks)))) EndDone)).
Proof.
  exists no_dump, 3, (default_config 1), "a.py", [""], src_far, (tree_of sample_far), (tokens_of sample_far), (firstn 1 (tokens_of sample_far_down)).
  cbv zeta. split; [discriminate|]. split; [ok|]. split. { intros l [<-|[]]; one_char. }
  split; [apply rows_ok; ok|]. split; [apply token_rows_ok; ok|]. split; [apply nodes_ok; ok|].
  intros M.
  assert (E : mins_of (result_of src_far sample_far) = mins_of (result_of src_far_down sample_far_down)).
  { unfold mins_of, result_of. revert M.
    replace (PTree (tree_of sample_far) (inr (tokens_of sample_far))) with sample_far by ok.
    replace (PTree _ (inr (_ ++ _))) with sample_far_down by ok. replace (text_below [""] src_far) with src_far_down by ok.
    destruct (snd (process_individual _ _ _ _ (FcSource src_far _) _)) as [[a|]|x],
      (snd (process_individual _ _ _ _ (FcSource src_far_down _) _)) as [[b|]|y]; cbn; try tauto.
    intros (_ & -> & _). reflexivity. }
  vm_compute in E. discriminate.
Qed.
Print Assumptions c77_top_refuted.
Example c77_far : mins_of (result_of src_far sample_far) = Some (Some (2, 7), Some (3, 1)) /\
  mins_of (result_of src_far_down sample_far_down) = Some (None, Some (3, 9)).
Proof. split; ok. Qed.
