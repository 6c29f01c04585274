(** C79: self-documenting f-strings. *)
From Verif Require Import PyBase PyLemmas Utility RulesData Rules Config Formats Paths AstKinds Ast State Visitor MinVersions Fstring
  Spec_Base Spec_Visitor Spec_MinVersions Spec_Seen Spec_Fstring Proof_Tour Proof_Runs Proof_Handlers Proof_Claims Proof_Shapes Proof_MinVersions Proof_Seen Proof_Reach Proof_Reached Proof_Fstring Trees_Fstring.

(** Each of them is recognized, if the expression is written in one of the usual ways. *)
Theorem c79_recognized_partial : forall man n b, self_documenting (fun x => ~ In x (map fst man)) (items "values" n) ->
  selfdoc man n = Ok b -> b = true.
Proof.
  intros man n b D E. apply (loop_seen man (fun x => ~ In x (map fst man))) with (2 := D) (3 := E). intros x N. unfold resolve_module_name.
  destruct (assoc x man) as [m|] eqn:A; [|reflexivity]. apply assoc_In in A. destruct N. apply in_map_iff. exists (x, m). auto.
Qed.
Print Assumptions c79_recognized_partial.

(** If all values of an f-string are such expressions, the answer is there, and it is yes only if the text before a value
    ends with it and [=]. *)
Theorem c79_sound : forall man n, (forall y, In y (items "values" n) -> isa KFormattedValue y ->
    exists s, written (fun x => ~ In x (map fst man)) (attr "value" y) s) ->
  exists b, selfdoc man n = Ok b /\ (b = true -> seems_documenting (fun x => ~ In x (map fst man)) (items "values" n)).
Proof.
  intros man n A. apply (loop_sound man (fun x => ~ In x (map fst man))); [|exact A]. intros x N. unfold resolve_module_name.
  destruct (assoc x man) as [m|] eqn:B; [|reflexivity]. apply assoc_In in B. destruct N. apply in_map_iff. exists (x, m). auto.
Qed.
Print Assumptions c79_sound.

(** A source with one of them asks for 3.8, if the feature is enabled and the f-string is come to. *)
Theorem c79_source_partial : forall e v L n s, tour e v = Ok s -> reached e v L n -> isa KJoinedStr n ->
  In "fstring-self-doc" (c_features (e_cfg e)) -> e_selfdoc e = selfdoc -> self_documenting (unnamed v) (items "values" n) ->
  In FFstringsSelfDoc (s_flags s) /\ forall m s', minimum_versions e s = Ok (m, s') -> mins_le (None, Some (3, 8)) m.
Proof.
  intros e v L n s T R K F Sd D. pose proof (reached_self_doc e v L n s T R K F Sd D) as I. split; [exact I|].
  intros m s' M. apply (proj1 (proj2 (join_of e s m s' M))). exact (trig_feature _ _ _ _ I doc_self_doc).
Qed.
Print Assumptions c79_source_partial.

(** And it is only told to have one if there is a text in an f-string that ends with the value that follows and [=]. *)
Theorem c79_source_sound : forall e v s, tour e v = Ok s -> e_selfdoc e = selfdoc -> In FFstringsSelfDoc (s_flags s) ->
  (forall n y, below n v -> isa KJoinedStr n -> In y (items "values" n) -> isa KFormattedValue y -> exists s, written (fun _ => False) (attr "value" y) s) ->
  exists n, below n v /\ isa KJoinedStr n /\ seems_documenting (fun _ => False) (items "values" n).
Proof.
  intros e v s T Sd I A. pose proof (tour_present e v s FFstringsSelfDoc T I) as P.
  inversion P as [f n B S|]; subst. inversion S as [f n' Q| | |]; subst. inversion Q; subst.
  exists n. split; [exact B|]. split; [assumption|].
  match goal with H : e_selfdoc e ?man n = Ok true |- _ => rewrite Sd in H; rename H into E; rename man into m end.
  destruct (loop_sound m (fun _ => False) (fun b F => match F with end) (items "values" n)) as (b & E' & G).
  { intros y Iy Ky. apply (A n y); assumption. }
  apply G. unfold selfdoc in E. unfold items in E'. congruence.
Qed.
Print Assumptions c79_source_sound.

(** Helpers for concrete texts. *)
Lemma gap_of s : sall gap_char s = true -> gap s.
Proof.
  intros E a c b ->. unfold sall in E. apply negb_true_iff in E. induction a as [|x a IH]; cbn in E; apply orb_false_iff in E as (E1 & E2).
  - now apply negb_false_iff in E1.
  - apply IH, E2.
Qed.
Definition word_char (c : ascii) : bool := negb (gap_char c || Ascii.eqb c "(" || Ascii.eqb c ")").
Lemma word_of c s : sall word_char (String c s) = true -> word (String c s).
Proof.
  intros E. split; [discriminate|]. intros a x b Q. rewrite Q in E. clear Q. unfold sall in E. apply negb_true_iff in E.
  induction a as [|y a IH]; cbn in E; apply orb_false_iff in E as (E1 & E2); [|exact (IH E2)].
  unfold word_char in E1. rewrite negb_involutive in E1. apply orb_false_iff in E1 as (E1 & E3). apply orb_false_iff in E1 as (E1 & E4).
  repeat split; [exact E1|apply Ascii.eqb_neq, E4|apply Ascii.eqb_neq, E3].
Qed.

Definition doc_config : config := w_features ["fstring-self-doc"] (default_config 1).
Definition doc_env : env := mkEnv doc_config "a.py" None [] selfdoc (fun _ => "").
Definition the_fstring (i : nat) : pyval :=
  nth i (items "args" (attr "value" (nth 1 (items "body" tree_documented) VNone))) VNone.

Ltac ctx := eexists _, _, _; (split; [left; reflexivity|reflexivity]).
Ltac nm := constructor; [apply word_of; reflexivity|ctx].
Ltac listed := match goal with |- _ _ ?l => let l' := eval vm_compute in l in replace l with l' by (vm_compute; reflexivity) end.
Ltac gp := apply gap_of; reflexivity.
Example c79_case : exists s, tour doc_env tree_documented = Ok s /\ reached doc_env tree_documented [] (the_fstring 0) /\
  isa KJoinedStr (the_fstring 0) /\ In "fstring-self-doc" (c_features doc_config) /\
  self_documenting (unnamed tree_documented) (items "values" (the_fstring 0)) /\
  self_documenting (fun _ => False) (items "values" (the_fstring 1)).
Proof.
  exists (match tour doc_env tree_documented with Ok s => s | _ => init_st end).
  split; [vm_compute; reflexivity|]. split; [apply seen_reached; [reflexivity|];
    apply (reach_seen _ _ [("body", 1%nat); ("value", 0%nat); ("args", 0%nat)]); vm_compute; reflexivity|].
  split; [reflexivity|]. split; [left; reflexivity|]. split.
  - listed. eapply (self_doc (unnamed tree_documented) [] _ _ _ _ "at  " "os . path.sep " " "); [|gp].
    apply (wr_gap_after _ _ "os . path.sep" " "); [gp|].
    apply (wr_dotted _ "os" _ "os.path.sep"); [|apply unnamedb_ok; vm_compute; reflexivity|].
    + apply (dn_attr _ _ _ _ _ "os.path"); [ctx|]. apply dn_base; ctx.
    + apply (sp_dot "os.path" "os . path" "" ""); [|gp|gp|apply word_of; reflexivity].
      apply (sp_dot "os" "os" " " " "); [apply sp_word, word_of; reflexivity|gp|gp|apply word_of; reflexivity].
  - listed. eapply (self_doc (fun _ => False) [] [] _ _ _ "" "h(t) is not None" ""); [|gp].
    apply (wr_compare _ _ _ _ _ _ "h(t) " "is not None").
    + apply (wr_gap_after _ _ "h(t)" " "); [gp|].
      apply (wr_call_name _ _ _ _ "h" _ "t"); [nm| |discriminate|discriminate]. apply wr_name. nm.
    + apply (cm_one _ _ KIsNot "is not" _ " None"); [eexists _, _; reflexivity|apply (cs_is_not " "); gp|].
      apply (wr_gap_before _ _ "None" " "); [gp|]. apply wr_literal; [constructor|discriminate|discriminate].
Qed.
(** All values of the second one are written in these ways. *)
Example c79_sound_case : forall y, In y (items "values" (the_fstring 1)) -> isa KFormattedValue y ->
    exists s, written (fun x => ~ In x []) (attr "value" y) s.
Proof.
  intros y I K. vm_compute in I. destruct I as [<-|[<-|[]]]; [discriminate|]. exists "h(t)is not None".
  apply (wr_compare _ _ _ _ _ _ "h(t)" "is not None").
  - apply (wr_call_name _ _ _ _ "h" _ "t"); [nm| |discriminate|discriminate]. apply wr_name. nm.
  - apply (cm_one _ _ KIsNot "is not" _ " None"); [eexists _, _; reflexivity|apply (cs_is_not " "); gp|].
    apply (wr_gap_before _ _ "None" " "); [gp|]. apply wr_literal; [constructor|discriminate|discriminate].
Qed.

(** Not all ways to write an expression are recognized: strings in single quotes, calls with more than one argument,
    slices and dotted names that begin with the new name of a module are missed. *)
Definition tree_of (w : way) : pyval :=
  match w with SingleQuotes => tree_single_quotes | TwoArguments => tree_two_arguments | ASlice => tree_a_slice | AnyName => tree_renamed end.
Theorem c79_all_refuted : forall w, exists n x y t s, reached doc_env (tree_of w) [] n /\ isa KJoinedStr n /\ items "values" n = [x; y] /\
  constant (VStr (t +++ "=")) x /\ isa KFormattedValue y /\ also_written w (attr "value" y) t /\
  tour doc_env (tree_of w) = Ok s /\ ~ In FFstringsSelfDoc (s_flags s).
Proof.
  intros w. set (n := attr "value" (last (items "body" (tree_of w)) VNone)).
  exists n, (nth 0 (items "values" n) VNone), (nth 1 (items "values" n) VNone),
    (match w with SingleQuotes => "'a'" | TwoArguments => "g(a, b)" | ASlice => "a[1:2]" | AnyName => "o.path" end),
    (match tour doc_env (tree_of w) with Ok s => s | _ => init_st end).
  split; [apply seen_reached; [destruct w; reflexivity|];
    apply (reach_seen _ _ [("body", match w with AnyName => 1%nat | _ => 0%nat end); ("value", 0%nat)]); destruct w; vm_compute; reflexivity|].
  split; [destruct w; reflexivity|]. split; [destruct w; reflexivity|]. split; [destruct w; split; reflexivity|]. split; [destruct w; reflexivity|].
  split; [|split; [destruct w; vm_compute; reflexivity|destruct w; vm_compute; intuition discriminate]].
  destruct w.
  - apply (al_quotes _ _ "a"). apply word_of. reflexivity.
  - apply (al_call _ _ _ "g" _ "a" _ "b"); nm.
  - apply (al_slice _ _ _ "a" _ _ _ "1" _ "2"); [nm| | |ctx]; (apply wr_literal; [|discriminate|discriminate]); [apply (li_int 1)|apply (li_int 2)]; lia.
  - apply (al_name "o" _ "o.path"); [apply dn_base; ctx|].
    apply (sp_dot "o" "o" "" ""); [apply sp_word, word_of; reflexivity|gp|gp|apply word_of; reflexivity].
Qed.
Print Assumptions c79_all_refuted.

(** And text that looks like one is taken for one: [f'a={a}'], which works since 3.6. *)
Theorem c79_only_refuted : exists v s m s', tour doc_env v = Ok s /\ In FFstringsSelfDoc (s_flags s) /\
  (forall n, below n v -> isa KFormattedValue n -> undocumented n) /\
  minimum_versions doc_env s = Ok (m, s') /\ m = (None, Some (3, 8)).
Proof.
  exists tree_plain_text, (match tour doc_env tree_plain_text with Ok s => s | _ => init_st end), (None, Some (3, 8)).
  eexists. split; [vm_compute; reflexivity|]. split; [vm_compute; tauto|]. split; [|split; [vm_compute; reflexivity|reflexivity]].
  intros n B K. apply walk_below in B. vm_compute in B.
  repeat (destruct B as [<-|B]; [first [discriminate K|split; reflexivity]|]). destruct B.
Qed.
Print Assumptions c79_only_refuted.
