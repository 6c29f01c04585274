(** C87: settings about names that a source does not say do not matter. *)
From Verif Require Import PyBase PyLemmas Utility RulesData Rules Config Formats Paths AstKinds Ast State Visitor MinVersions Fstring
  Parser Processor Main Spec_Base Spec_Visitor Spec_Rules Spec_Named Proof_Shapes Proof_Rules Proof_Named Proof_Named_Runs
  Samples Samples_Annotations.

(** Backports and exclusions for names whose parts do not stand in the source change nothing of what is found in a file:
    not the verdict, not the text, not the hints, and not whether and how it fails. *)
Theorem c87_tree : forall h c c' path source v nov how, same_settings c c' -> about_others v c c' ->
  process_tree h c' path source v nov how = process_tree h c path source v nov how.
Proof. intros h c c' path source v nov how R O. exact (proj1 (file_same c c' R h path source v nov how O)). Qed.
Print Assumptions c87_tree.

(** The API. *)
Theorem c87_detect : forall h major c c' path src v nov p, same_settings c c' -> about_others v c c' ->
  parser_detect major c p = DTree v nov -> api_detect h major c' path src p = api_detect h major c path src p.
Proof. intros h major c c' path src v nov p R O D. exact (detect_same c c' R h major path src v nov p O D). Qed.
Print Assumptions c87_detect.

(** One exclusion, one backport. *)
Theorem c87_exclusion : forall h major c path src v nov p y, excludes_other v y -> parser_detect major c p = DTree v nov ->
  api_detect h major (add_exclusion y c) path src p = api_detect h major c path src p.
Proof. intros h major c path src v nov p y E D. destruct (exclusion_other v c y E) as [R O]. exact (c87_detect h major c _ path src v nov p R O D). Qed.
Print Assumptions c87_exclusion.
Theorem c87_backport : forall h major c path src v nov p b, backport_of_other v b -> parser_detect major c p = DTree v nov ->
  api_detect h major (fst (add_backport b c)) path src p = api_detect h major c path src p.
Proof. intros h major c path src v nov p b E D. destruct (backport_other v c b E) as [R O]. exact (c87_detect h major c _ path src v nov p R O D). Qed.
Print Assumptions c87_backport.

(** Runs: what is printed, what is returned, and the final report with its tips and exit code. *)
Theorem c87_run : forall h major c c' file how processes paths, same_settings c c' ->
  (forall p src q v nov, In p paths -> file p = FcSource src q -> parser_detect major c q = DTree v nov -> about_others v c c') ->
  process h major c' file how processes paths = process h major c file how processes paths /\
  forall out s versions, process h major c file how processes paths = (out, Ok s) -> report c' versions s = report c versions s.
Proof.
  intros h major c c' file how processes paths R O. split; [apply (process_same c c' R), O|].
  intros out s versions E. apply (report_same c c' R major file paths O). exact (process_found c c' R h major file how paths O processes out s E).
Qed.
Print Assumptions c87_run.

(** Source: as for C86, [import typing] and annotations; the backports [argparse] and [enum] and the exclusions
    [asyncio.run] and [zipfile.ZipFile(compresslevel)] are about none of it. *)
Ltac ok := vm_compute; reflexivity.
Lemma no_paren y m k : contains "(" y = false -> y <> m +++ "(" +++ k +++ ")".
Proof.
  intros C ->. assert (T : contains "(" (m +++ "(" +++ k +++ ")") = true); [|rewrite T in C; discriminate].
  clear C. induction m as [|a m IH]; [reflexivity|]. change (String a m +++ "(" +++ k +++ ")") with (String a (m +++ "(" +++ k +++ ")")).
  cbn [contains]. rewrite IH. apply orb_true_r.
Qed.
Lemma backport_foreign v b : foreign v b = true -> foreign v (version_filter b) = true -> backport_of_other v b.
Proof.
  intros F G n [<-|V]; [apply foreign_other, F|]. apply (proj1 (version_filter_spec b)) in V as <-. apply foreign_other, G.
Qed.
Definition no_dump (_ : pyval) : string := "".
Definition detected_with (c : config) (src : string) (p : parsed) : res mins := api_detect (mkHooks selfdoc no_dump) 3 c None src p.
Example c87_case :
  let c := default_config 1 in let p := PTree tree_annotated (inr tokens_annotated) in
  excludes_other tree_annotated "asyncio.run" /\ excludes_other tree_annotated "zipfile.ZipFile(compresslevel)" /\
  backport_of_other tree_annotated "enum" /\ backport_of_other tree_annotated "typing_extensions==4.3" /\
  made_of tree_annotated "typing" /\ is_backport "enum" = true /\
  (exists nov, parser_detect 3 c p = DTree tree_annotated nov) /\
  detected_with c src_annotated p = Ok (None, Some (3, 8)) /\
  detected_with (add_exclusion "asyncio.run" (fst (add_backport "enum" c))) src_annotated p = Ok (None, Some (3, 8)).
Proof.
  cbv zeta.
  assert (W : made_of tree_annotated "typing").
  { intros q [<-|[]]. right. exists "typing". split; [|left; reflexivity].
    assert (E : existsb (fun n => match attr "name" n with VStr t => String.eqb t "typing" | _ => false end) (walk tree_annotated) = true) by ok.
    apply existsb_exists in E as (n & I & E). exists n, "name". split; [apply walk_below, I|]. split; [discriminate|].
    destruct (attr "name" n); try discriminate. apply String.eqb_eq in E as ->. reflexivity. }
  split; [|split; [|split; [|split; [|split; [exact W|split; [ok|split; [eexists; ok|split; ok]]]]]]].
  - split; [apply foreign_other; ok|]. split; [|split; discriminate]. intros m k E. exfalso. revert E. apply no_paren. ok.
  - split; [apply foreign_other; ok|]. split; [|split; discriminate]. intros m k E.
    assert (M : m = "zipfile.ZipFile").
    { destruct m as [|? m]; [discriminate|]. cbn in E. injection E as <- E. do 14 (destruct m as [|? m]; [discriminate|]; cbn in E; injection E as <- E).
      destruct m as [|? m]; [reflexivity|]. exfalso. cbn in E. injection E as _ E. symmetry in E. revert E. apply not_eq_sym. apply no_paren. ok. }
    subst m. apply foreign_other. ok.
  - apply backport_foreign; ok.
  - apply backport_foreign; ok.
Qed.

(** For a name that the source says it matters: with the backport [typing], the requirement of [import typing] is less;
    and an excluded module requires nothing. *)
Example c87_said :
  let c := default_config 1 in
  map (fun c => detected_with c src_enum_typing sample_enum_typing)
    [c; fst (add_backport "typing" c); add_exclusion "typing" c; add_exclusion "asyncio" c] =
  [Ok (None, Some (3, 5)); Ok (None, Some (3, 4)); Ok (None, Some (3, 4)); Ok (None, Some (3, 5))].
Proof. ok. Qed.
