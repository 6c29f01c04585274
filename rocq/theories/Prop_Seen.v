(** C38, C40, C61: what is in the source is found. *)
From Verif Require Import PyBase PyLemmas Utility RulesData Rules Config Formats Paths AstKinds Ast State Visitor MinVersions
  Parser Processor Spec_Base Spec_Visitor Spec_Same Spec_MinVersions Spec_Main Spec_Seen Proof_Shapes Proof_Runs Proof_Tour Proof_Forms Proof_Seen Proof_Reached
  Proof_Reach Proof_Asks Trees Prop_Visitor Prop_MinVersions Prop_Main.

(** The node a path leads to. *)
Definition node_at (path : list (string * nat)) (v : pyval) : pyval :=
  match reach env_default false path v with Some n => n | None => VNone end.
Lemma node_at_seen path v : is_node (node_at path v) = true -> seen env_default false (node_at path v) v.
Proof.
  unfold node_at. destruct (reach env_default false path v) as [n|] eqn:R; [|discriminate]. intros _. exact (reach_seen _ _ _ _ _ R).
Qed.
Ltac at_node := apply node_at_seen; vm_compute; reflexivity.

(** ** C38 *)
(** The full statement: a construct of a feature anywhere in the tree, on a line that counts, is
    reported. Proved for the constructs of every feature that an analysis comes to ([reached]) and that
    nothing in the source can disguise ([shown]). False for the values of keyword arguments for functions
    of the source's own, the values of annotated assignments without --eval-annotations and awaits in
    the element of a comprehension. Constructs that depend on what names stand for: c38_names. *)
Theorem c38_seen_partial : forall e v L n f s, tour e v = Ok s -> reached e v L n -> shown e v f n -> In f (s_flags s).
Proof. intros e v L n f s. exact (reached_shown e v L n f s). Qed.
Print Assumptions c38_seen_partial.

(** A named expression in a yield in a coroutine; an f-string in a call in it. *)
Definition walrus : pyval := node_at [("body", 0%nat); ("body", 0%nat); ("value", 0%nat); ("value", 0%nat)] tree_features.
Definition fstring : pyval :=
  node_at [("body", 0%nat); ("body", 0%nat); ("value", 0%nat); ("value", 0%nat); ("value", 0%nat); ("value", 0%nat); ("args", 0%nat)] tree_features.
Example c38_case : reached env_default tree_features [] walrus /\ certain env_default tree_features FNamedExprs walrus /\
  reached env_default tree_features [] fstring /\ certain env_default tree_features FFstrings fstring.
Proof.
  split; [apply seen_reached; [reflexivity|at_node]|]. split; [apply ce_plain; [cbv; tauto|]; apply sh_walrus; [reflexivity|intros []]|].
  split; [apply seen_reached; [reflexivity|at_node]|]. apply ce_plain; [cbv; tauto|]. apply sh_fstring. reflexivity.
Qed.

(** An asynchronous generator with an await in a comprehension, attributes of a module, a parenthesised [with]
    and a [continue] in a [finally] in it. *)
Definition env_around : env := mkEnv (default_config 1) "a/__init__.py" (Some text_around) [] (fun _ _ => Ok false) (fun _ => "").
Definition around (path : list (string * nat)) : pyval :=
  match reach env_around false path tree_around with Some n => n | None => VNone end.
Lemma around_reached path : is_node (around path) = true -> reached env_around tree_around [] (around path).
Proof.
  unfold around. destruct (reach env_around false path tree_around) as [n|] eqn:R; [|discriminate]. intros _.
  apply seen_reached; [reflexivity|]. exact (reach_seen _ _ _ _ _ R).
Qed.
Example c38_around :
  (reached env_around tree_around [] (around [("body", 0%nat)]) /\ shown env_around tree_around FAsyncGenerator (around [("body", 0%nat)])) /\
  (let comp := around [("body", 0%nat); ("body", 0%nat); ("value", 0%nat); ("value", 0%nat); ("generators", 0%nat)] in
   reached env_around tree_around [] comp /\ shown env_around tree_around FAwaitInComprehension comp) /\
  shown env_around tree_around FModuleDir (around [("body", 1%nat)]) /\ shown env_around tree_around FModuleGetattr (around [("body", 2%nat)]) /\
  (reached env_around tree_around [] (around [("body", 3%nat)]) /\ shown env_around tree_around FWithParens (around [("body", 3%nat)])) /\
  (let t := around [("body", 3%nat); ("body", 0%nat)] in
   reached env_around tree_around [] t /\ shown env_around tree_around FContinueInFinally t).
Proof.
  split; [split; [apply around_reached; run|]|].
  { apply sn_async_generator with (y := around [("body", 0%nat); ("body", 0%nat); ("value", 0%nat)])
      (w := around [("body", 0%nat); ("body", 1%nat); ("value", 0%nat)]); try run; try (intros []).
    - apply (spot_sighted _ _ [("body", 0%nat); ("value", 0%nat)]). run.
    - apply (spot_sighted _ _ [("body", 1%nat); ("value", 0%nat)]). run. }
  split; [split; [apply around_reached; run|]|].
  { apply sn_await_in_comp with (w := around [("body", 0%nat); ("body", 0%nat); ("value", 0%nat); ("value", 0%nat); ("generators", 0%nat); ("ifs", 0%nat)]);
      [run| |run|intros []]. apply (spot_sighted _ _ [("ifs", 0%nat)]). run. }
  split; [apply sn_module_dir; [run|vm_compute; tauto|left; run|intros []|run|run|repeat split]|].
  split; [apply sn_module_getattr; [run|vm_compute; tauto|left; run|intros []|run|run|repeat split]|].
  split; [split; [apply around_reached; run|]|].
  { eapply sn_with_parens; [left; run|intros []|run|].
    exists text_around, "with (a as b,", ["      c as d):"; "  try: pass"; "  finally:"; "    if a: continue"], "", " ",
      ("a as b," +++ nl +++ "      c as d):" +++ nl +++ "  try: pass" +++ nl +++ "  finally:" +++ nl +++ "    if a: continue").
    split; [run|]. split; [run|]. split; [run|]. split; [run|]. split; [|cbn; lia].
    intros [|c a] d b E; [injection E as <- _; left; run|]. injection E as _ E. destruct a; discriminate. }
  split; [apply around_reached; run|].
  apply sn_continue with (x := around [("body", 3%nat); ("body", 0%nat); ("finalbody", 0%nat)])
    (c := around [("body", 3%nat); ("body", 0%nat); ("finalbody", 0%nat); ("body", 0%nat)]); [run|intros []|vm_compute; left; reflexivity| |].
  - apply (spot_sight _ _ [("body", 0%nat)]). run.
  - run.
Qed.
(** An await in the element of a comprehension is not taken for one in a comprehension. *)
Theorem c38_await_element_refuted : exists e v n w s, tour e v = Ok s /\ reached e v [] n /\ isa KListComp n /\
  sighted e await_stops w n /\ isa KAwait w /\ e_nolines e = [] /\ ~ In FAwaitInComprehension (s_flags s).
Proof.
  exists env_default, tree_await_elt, (node_at [("body", 0%nat); ("body", 0%nat); ("value", 0%nat)] tree_await_elt),
    (node_at [("body", 0%nat); ("body", 0%nat); ("value", 0%nat); ("elt", 0%nat)] tree_await_elt), (ended (tour env_default tree_await_elt)).
  split; [run|]. split; [apply seen_reached; [reflexivity|at_node]|]. split; [run|].
  split; [apply (spot_sighted _ _ [("elt", 0%nat)]); run|]. split; [run|]. split; [run|]. vm_compute. intuition discriminate.
Qed.
Print Assumptions c38_await_element_refuted.

(** An f-string as the value of a keyword argument for a function of the source's own, and as the value of an annotated variable, is not
    found. *)
Definition kw_fstring : pyval := attr "value" (hd VNone (items "keywords" (attr "value" (nth 1 (items "body" tree_kw_value) VNone)))).
Definition ann_fstring : pyval := attr "value" (hd VNone (items "body" tree_ann_value)).
Theorem c38_keyword_refuted : exists e v n s, tour e v = Ok s /\ below n v /\ e_nolines e = [] /\ certain e v FFstrings n /\ ~ In FFstrings (s_flags s).
Proof.
  exists env_default, tree_kw_value, kw_fstring, (ended (tour env_default tree_kw_value)).
  split; [run|]. split; [apply walk_below; vm_compute; tauto|]. split; [reflexivity|].
  split; [apply ce_plain; [cbv; tauto|apply sh_fstring; reflexivity]|]. vm_compute. tauto.
Qed.
Print Assumptions c38_keyword_refuted.
Theorem c38_annotated_refuted : exists e v n s, tour e v = Ok s /\ below n v /\ e_nolines e = [] /\ certain e v FFstrings n /\ ~ In FFstrings (s_flags s).
Proof.
  exists env_default, tree_ann_value, ann_fstring, (ended (tour env_default tree_ann_value)).
  split; [run|]. split; [apply walk_below; vm_compute; tauto|]. split; [reflexivity|].
  split; [apply ce_plain; [cbv; tauto|apply sh_fstring; reflexivity]|]. vm_compute. intuition discriminate.
Qed.
Print Assumptions c38_annotated_refuted.

(** ** C40 *)
(** The full statement: a name defined at module level is not reported as a module or member of the
    library. Proved for every definition that is not inside a statement or expression with a scope of
    its own; for such a statement the code also takes [for], [with] and [except] (refuted below). *)
Theorem c40_defined_partial : forall e v n x s, tour e v = Ok s -> seen e true n v -> binds_here e x n ->
  ~ In x (s_modules s) /\ ~ In x (s_members s).
Proof. intros e v n x s. exact (seen_not_library e v n x s). Qed.
Print Assumptions c40_defined_partial.

(** A function defined after its use, in an [if]; an import that hides an earlier one. *)
Definition own_at (path : list (string * nat)) : pyval :=
  match reach env_default true path tree_own_names with Some n => n | None => VNone end.
Lemma own_at_seen path : is_node (own_at path) = true -> seen env_default true (own_at path) tree_own_names.
Proof.
  unfold own_at. destruct (reach env_default true path tree_own_names) as [n|] eqn:R; [|discriminate]. intros _. exact (reach_seen _ _ _ _ _ R).
Qed.
Example c40_case : exists s, tour env_default tree_own_names = Ok s /\
  seen env_default true (own_at [("body", 2%nat); ("body", 0%nat)]) tree_own_names /\
  binds_here env_default "breakpoint" (own_at [("body", 2%nat); ("body", 0%nat)]) /\
  seen env_default true (own_at [("body", 3%nat)]) tree_own_names /\ binds_here env_default "argparse" (own_at [("body", 3%nat)]) /\
  s_modules s = ["a"; "a.b"] /\ s_members s = ["anext"] /\
  exists m, mem_req [] "breakpoint" = Some m /\ exists m', mod_req [] "argparse" = Some m'.
Proof.
  ok. split; [apply own_at_seen; run|]. split; [apply bh_def; [left; left; reflexivity|intros []|reflexivity]|].
  split; [apply own_at_seen; run|]. split.
  { eapply bh_from; [reflexivity|intros []|reflexivity| |left; reflexivity|reflexivity]. vm_compute. intros z E. injection E as <-. discriminate. }
  split; [run|]. split; [run|]. eexists. split; [run|]. eexists. run.
Qed.

(** A function defined in the body of a loop at module level: a later call of it counts as one of the
    builtin. *)
Definition in_for : pyval := hd VNone (items "body" (hd VNone (items "body" tree_own_in_for))).
Theorem c40_loop_refuted : exists e v n s x, tour e v = Ok s /\ below n v /\ binds_here e x n /\ In x (s_members s).
Proof.
  exists env_default, tree_own_in_for, in_for, (ended (tour env_default tree_own_in_for)), "breakpoint".
  split; [run|]. split; [apply walk_below; vm_compute; tauto|]. split; [apply bh_def; [left; left; reflexivity|intros []|reflexivity]|].
  vm_compute. tauto.
Qed.
Print Assumptions c40_loop_refuted.

(** ** C61 *)
(** Imported modules and members, called functions, exceptions raised and caught, and dotted names. [L]
    has the imports that come before the construct. *)
Theorem c61_modules : forall e v L n m s, tour e v = Ok s -> reached e v L n -> loads e n m -> reportable e v m -> In m (s_modules s).
Proof. intros e v L n m s. exact (reached_loads e v L n m s). Qed.
Print Assumptions c61_modules.

Theorem c61_members : forall e v L n m s r, tour e v = Ok s -> reached e v L n -> mentions e v L n m -> reportable e v m ->
  mem_req [] m = Some r -> In m (s_members s).
Proof. exact reached_members. Qed.
Print Assumptions c61_members.

(** Date and byte directives, type codes, codecs arguments and decorators. *)
Theorem c61_arguments : forall e v L n s, tour e v = Ok s -> reached e v L n ->
  (forall d, formats_date e n d -> In d (s_strftimes s)) /\
  (forall d, formats_bytes n d -> In d (s_bytesdirs s)) /\
  (forall d, gives_typecode e v L n d -> In d (s_typecodes s)) /\
  (forall c, gives_handler e v L n c -> In c (s_cehs s)) /\
  (forall c, gives_encoding e v L n c -> In c (s_cencs s)).
Proof. exact reached_arguments. Qed.
Print Assumptions c61_arguments.

Theorem c61_decorators : forall e v L n d s r, tour e v = Ok s -> reached e v L n -> has_decorator e v L n d -> reportable e v d ->
  In (d, r) decorator_user_functions -> In d (s_ufds s).
Proof. exact reached_decorators. Qed.
Print Assumptions c61_decorators.

(** Keyword arguments, for the function called. *)
Theorem c61_keywords : forall e v L n w f k s, tour e v = Ok s -> reached e v L n -> keyword_of e v L n w f k -> In (f, k) (s_kwargs s).
Proof. exact reached_keyword. Qed.
Print Assumptions c61_keywords.

(** So the verdict on a source is at least what each construct in it that is come to asks for. *)
Theorem c61_verdict : forall e v L n r s m s', tour e v = Ok s -> reached e v L n -> asks e v L (bps_of e) n r ->
  minimum_versions e s = Ok (m, s') -> mins_le r m.
Proof. exact reached_verdict. Qed.
Print Assumptions c61_verdict.

(** And so is the minimum of a run over any number of files. *)
Theorem c61_run : forall h major c file how k paths rs out sm p source ps node nov e L n r,
  analysed h major c file how paths rs -> toured rs -> 1 <= k ->
  process h major c file how k paths = (out, Ok sm) -> m_incomp sm = false ->
  In p paths -> file p = FcSource source ps -> parser_detect major c ps = DTree node nov -> make_visitor h c p source nov = Ok e ->
  reached e node L n -> asks e node L (c_backports c) n r -> mins_le r (m_mins sm).
Proof. exact reached_run. Qed.
Print Assumptions c61_run.

(** One construct of each form: a module, an attribute, an exception, a date directive, a byte directive,
    a type code, an error handler, an encoding, a decorator. *)
Definition asks_at (path : list (string * nat)) (r : mins) : Prop :=
  reached env_default tree_asks [] (node_at path tree_asks) /\ asks env_default tree_asks [] [] (node_at path tree_asks) r.
Lemma asks_reportable x : unnamedb tree_asks x = true -> reportable env_default tree_asks x.
Proof. intros H. split; [exact (unnamedb_ok _ _ H)|intros []]. Qed.
Ltac ctx := exists KLoad; do 2 eexists; split; [left; reflexivity|reflexivity].
Ltac parts := first [apply dn_base; ctx | apply dn_attr; [ctx|parts]].
Ltac dn := eapply dotted_name_eq; [vm_compute; reflexivity|parts|reflexivity].
Ltac out := apply sd_outside, unnamedb_ok; run.
Ltac rep := apply asks_reportable; run.
Ltac dot b := split; [reflexivity|]; split; [intros []|]; exists b, b; split; [dn|out].
Definition in_f : list (string * nat) := [("body", 1%nat); ("body", 0%nat); ("value", 0%nat)].
Example c61_case : exists s, tour env_default tree_asks = Ok s /\
  asks_at [("body", 0%nat)] (Some (2, 7), Some (3, 2)) /\
  asks_at [("body", 5%nat); ("body", 0%nat); ("handlers", 0%nat); ("body", 0%nat); ("value", 0%nat); ("func", 0%nat)] (Some (2, 6), Some (3, 0)) /\
  asks_at [("body", 5%nat); ("body", 0%nat); ("handlers", 0%nat)] (None, Some (3, 6)) /\
  asks_at [("body", 2%nat); ("value", 0%nat)] (None, Some (3, 6)) /\
  asks_at [("body", 3%nat); ("value", 0%nat)] (None, Some (3, 5)) /\
  asks_at [("body", 4%nat); ("value", 0%nat)] (None, Some (3, 3)) /\
  asks_at in_f (None, Some (3, 5)) /\
  asks_at in_f (None, Some (3, 4)) /\
  asks_at [("body", 1%nat)] (None, Some (3, 9)) /\
  exists s', minimum_versions env_default s = Ok ((None, Some (3, 9)), s').
Proof.
  ok. repeat match goal with |- asks_at _ _ /\ _ => split; [split; [apply seen_reached; [reflexivity|at_node]|]|] end.
  - apply as_module with "argparse"; [|rep|run]. eapply loads_import; [reflexivity|intros []|right; right; left; reflexivity|reflexivity].
  - apply as_member with "os.path.relpath"; [|rep|run]. apply me_dotted with "os" "os"; [dn|]. out.
  - apply as_member with "ModuleNotFoundError"; [|rep|run]. eapply me_except; [reflexivity|intros []|constructor 1; reflexivity|split; reflexivity].
  - apply as_date with "G"; [|left; reflexivity]. split; [reflexivity|]. split; [intros []|]. split; [reflexivity|]. split; [left; reflexivity|].
    eexists; exists "%Y-%3G". split; [left; reflexivity|]. split; [split; reflexivity|]. split.
    + exists "%Y-", "3", "G"%char, "". repeat split. intros [|p0 p] x q E; [|destruct p; discriminate]. injection E as <- _. left. reflexivity.
    + intros c E. injection E as <-. reflexivity.
  - apply as_bytes with "a"; [|left; reflexivity]. exists "%a". split; [split; reflexivity|]. split.
    + exists "b'", "", "a"%char, "'". repeat split. intros [|p0 p] x q E; discriminate.
    + intros c E. injection E as <-. reflexivity.
  - apply as_typecode with "q"; [|left; reflexivity]. split; [right; left; dot "array"|]. eexists. split; [left; reflexivity|split; reflexivity].
  - apply as_handler with "namereplace"; [|cbv; tauto]. exists "codecs.encode", 2%nat. split; [left; dot "codecs"|]. split; [left; reflexivity|].
    split; [|intros []]. right. eexists; exists "errors". split; [left; reflexivity|]. split; [reflexivity|]. split; [left; reflexivity|split; reflexivity].
  - eapply as_encoding with (x := "hex") (k := EncSubstr "hex"); [|cbv; tauto|reflexivity]. exists "codecs.encode", [1%nat]. split; [left; dot "codecs"|].
    split; [left; reflexivity|]. split; [intros []|]. left. exists 1%nat. eexists. split; [left; reflexivity|]. split; [reflexivity|split; reflexivity].
  - apply as_decorator with "functools.cache"; [|rep|cbv; tauto]. split; [left; reflexivity|]. split; [intros []|].
    eexists. split; [left; reflexivity|]. split; [intros []|]. apply df_dotted with "functools" "functools"; [dn|out| |].
    + apply importedb_ok. run.
    + apply unnamedb_ok. run.
  - eexists. run.
Qed.

(** And with what comes before: a name given to a module, functions imported and renamed, keyword
    arguments and what they are given. *)
Definition tracked (path : list (string * nat)) (v : pyval) : list pyval * pyval :=
  match track env_default path [] v with Some x => x | None => ([], VNone) end.
Lemma tracked_reached path v : is_node (snd (tracked path v)) = true -> is_node v = true ->
  reached env_default v (fst (tracked path v)) (snd (tracked path v)).
Proof.
  unfold tracked. destruct (track env_default path [] v) as [[L n]|] eqn:T; [|discriminate]. intros _ N.
  exact (track_reached _ _ _ _ _ _ _ (rc_root _ _ N) T).
Qed.
Definition asks_after (path : list (string * nat)) (r : mins) : Prop :=
  reached env_default tree_before (fst (tracked path tree_before)) (snd (tracked path tree_before)) /\
  asks env_default tree_before (fst (tracked path tree_before)) [] (snd (tracked path tree_before)) r.
Definition at_zip : list (string * nat) := [("body", 6%nat); ("value", 0%nat)].
Definition zip_arg : pyval := hd VNone (items "keywords" (snd (tracked at_zip tree_before))).
Lemma before_reportable x : unnamedb tree_before x = true -> reportable env_default tree_before x.
Proof. intros H. split; [exact (unnamedb_ok _ _ H)|intros []]. Qed.
Ltac rest := split; [left; reflexivity|]; split; [split; reflexivity|]; split; [apply named_calls_ok; run|]; split; [apply unnamedb_ok; run|intros []].
Ltac nodot := apply no_dot_ok; reflexivity.
Ltac imp i := split; [exists (nth i (items "body" tree_before) VNone); split; [vm_compute; tauto|]; split; [|split; [discriminate|]]|apply all_from_ok; run];
  [split; [reflexivity|]; split; [intros []|]; split; [reflexivity|]; vm_compute; intros z E; injection E as <-; discriminate
  |eexists; split; [left; reflexivity|reflexivity]].
Ltac ren := split; [|apply all_named_ok; run].
Lemma zip_keyword : keyword_of env_default tree_before (fst (tracked at_zip tree_before)) (snd (tracked at_zip tree_before)) zip_arg
  "zipfile.ZipFile" (Some "strict_timestamps").
Proof.
  split; [reflexivity|]. split; [intros []|]. split; [|rest]. apply (kf_imported _ _ _ _ "ZipFile" "zipfile"); [split; [reflexivity|split; reflexivity]|].
  imp 2%nat.
Qed.
Example c61_before_case : exists s, tour env_default tree_before = Ok s /\
  asks_after [("body", 8%nat); ("value", 0%nat); ("value", 0%nat)] (None, Some (3, 2)) /\
  asks_after [("body", 5%nat)] (None, Some (3, 9)) /\
  asks_after [("body", 5%nat); ("body", 0%nat); ("value", 0%nat)] (None, Some (3, 3)) /\
  asks_after at_zip (None, Some (3, 8)) /\
  asks_after [("body", 7%nat); ("body", 0%nat); ("value", 0%nat)] (None, Some (3, 5)) /\
  asks_after [("body", 9%nat); ("value", 0%nat)] (None, Some (3, 4)) /\
  asks_after [("body", 10%nat); ("value", 0%nat)] (None, Some (3, 8)) /\
  reached env_default tree_before (fst (tracked at_zip tree_before)) (attr "value" zip_arg) /\ is_kind KJoinedStr (attr "value" zip_arg) = true.
Proof.
  ok. repeat match goal with |- asks_after _ _ /\ _ => split; [split; [apply tracked_reached; vm_compute; reflexivity|]|] end.
  - apply as_member with "datetime.timezone"; [|apply before_reportable; run|run]. apply me_dotted with "dt" "datetime"; [dn|]. apply sd_renamed. ren.
    exists (nth 0 (items "body" tree_before) VNone). split; [vm_compute; tauto|]. eapply renames_import; [reflexivity|intros []|left; reflexivity|reflexivity|reflexivity].
  - apply as_decorator with "functools.cache"; [|apply before_reportable; run|cbv; tauto]. split; [left; reflexivity|]. split; [intros []|].
    eexists. split; [left; reflexivity|]. split; [intros []|]. apply (df_imported _ _ _ _ "cache" "functools"); [split; reflexivity|]. imp 1%nat.
  - eapply (as_keyword _ _ _ _ _ _ _ "print" "flush"); [|run]. split; [reflexivity|]. split; [intros []|]. split; [|rest].
    apply kf_name; [split; [reflexivity|split; reflexivity]|nodot|apply importedb_ok; run|apply assignsb_ok; run].
  - exact (as_keyword _ _ _ _ _ _ _ _ _ zip_keyword eq_refl).
  - eapply (as_keyword _ _ _ _ _ _ _ "argparse.ArgumentParser" "allow_abbrev"); [|run]. split; [reflexivity|]. split; [intros []|]. split; [|rest].
    apply (kf_dotted _ _ _ _ "argparse" "argparse" "argparse" "ArgumentParser"); [dn|out|nodot|apply importedb_ok; run|apply importedb_ok; run|apply assignsb_ok; run].
  - eapply as_encoding with (x := "hex") (k := EncSubstr "hex"); [|cbv; tauto|reflexivity]. exists "codecs.encode", [1%nat].
    split; [left|split; [left; reflexivity|]; split; [intros []|]; left; exists 1%nat; eexists; split; [left; reflexivity|]; split; [reflexivity|split; reflexivity]].
    split; [reflexivity|]. split; [intros []|]. exists "c", "codecs". split; [dn|]. apply sd_renamed. ren.
    exists (nth 4 (items "body" tree_before) VNone). split; [vm_compute; tauto|]. eapply renames_import; [reflexivity|intros []|left; reflexivity|reflexivity|reflexivity].
  - eapply (as_keyword _ _ _ _ _ _ _ "asyncio.loop.create_task" "name"); [|run]. split; [reflexivity|]. split; [intros []|]. split; [|rest].
    apply (kf_dotted_from _ _ _ _ "loop" "create_task" "asyncio"); [dn|apply unnamedb_ok; run|nodot|apply importedb_ok; run|]. imp 3%nat.
  - split; [|reflexivity]. eapply rc_keyword; [apply tracked_reached; vm_compute; reflexivity|exact zip_keyword|].
    split; [reflexivity|]. eexists. split; [right; left; reflexivity|left; reflexivity].
Qed.

(** A function called by another name than the one it is imported with: its keyword arguments are not
    looked up, though the name is known to stand for it. *)
Theorem c43_renamed_refuted : exists e v L n w s m, tour e v = Ok s /\ reached e v L n /\ e_nolines e = [] /\ calls "Z" n /\
  renamed_as e v L "Z" "zipfile.ZipFile" /\ In w (items "keywords" n) /\ keyword_arg w (Some "strict_timestamps") /\
  unnamed v "zipfile.ZipFile" /\ c_exclusions_set (e_cfg e) = [] /\
  kwarg_req [] ("zipfile.ZipFile", "strict_timestamps") = Some m /\ s_kwargs s = [].
Proof.
  exists env_default, tree_kw_renamed, (fst (tracked [("body", 1%nat); ("value", 0%nat)] tree_kw_renamed)),
    (snd (tracked [("body", 1%nat); ("value", 0%nat)] tree_kw_renamed)).
  eexists; exists (ended (tour env_default tree_kw_renamed)); eexists.
  split; [run|]. split; [apply tracked_reached; vm_compute; reflexivity|]. split; [reflexivity|]. split; [split; [reflexivity|split; reflexivity]|].
  split. { split; [|apply all_named_ok; run]. exists (nth 0 (items "body" tree_kw_renamed) VNone). split; [vm_compute; tauto|].
    apply (rn_from _ _ _ "zipfile" (hd VNone (items "names" (nth 0 (items "body" tree_kw_renamed) VNone)))); [|left; reflexivity|reflexivity].
    split; [reflexivity|]. split; [intros []|]. split; [reflexivity|]. vm_compute. intros z E. injection E as <-. discriminate. }
  split; [left; reflexivity|]. split; [split; reflexivity|]. split; [apply unnamedb_ok; run|]. split; [reflexivity|]. split; run.
Qed.
Print Assumptions c43_renamed_refuted.
