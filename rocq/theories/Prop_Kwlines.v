(** C64: where the lines printed for the verdict point to, those of keyword arguments included. *)
From Verif Require Import PyBase PyLemmas Utility RulesData Rules Config Formats Paths AstKinds Ast State Visitor MinVersions
  Spec_Base Spec_Utility Spec_Formats Spec_Visitor Spec_MinVersions Spec_Places Spec_Explain Spec_Kwlines
  Proof_Utility Proof_Tour Proof_Shapes Proof_Places Proof_Spots Proof_Kwlines Prop_Visitor Prop_Explain Prop_Places Trees Trees_Lines.

(** What is printed for the verdict: the line about [print] has no position; a line about anything found of
    the library has that of a use of it; one about a keyword argument has that of something in a call, or in
    a class definition, that has the argument. *)
Theorem c64_used_there : forall e v s m s', c_print_visits (e_cfg e) = false -> placed_tree v -> arguments_in_calls v ->
  tour e v = Ok s -> minimum_versions e s = Ok (m, s') -> 3 <= c_verbose (e_cfg e) ->
  exists lines, s_out s' = s_out s ++ lines /\ forall y, In y lines ->
    y = format_output_line (e_cfg e) "print(expr)" (e_path e) None None (Some (both 0 0)) None \/
    (exists x msg r, finding (bps_of e) s x msg r /\ said_where_used e v x msg r y) \/
    (exists f k r, In (f, Some k) (s_kwargs s) /\ kwarg_req (bps_of e) (f, k) = Some r /\ said_in_call e v f k r y).
Proof. exact all_lines. Qed.
Print Assumptions c64_used_there.

(** Every keyword argument found that is to be shown has such a line. *)
Theorem c64_each_keyword : forall e v s m s', c_print_visits (e_cfg e) = false -> placed_tree v -> arguments_in_calls v ->
  tour e v = Ok s -> minimum_versions e s = Ok (m, s') -> 3 <= c_verbose (e_cfg e) ->
  forall f k r, outspoken (e_cfg e) -> In (f, Some k) (s_kwargs s) -> kwarg_req (bps_of e) (f, k) = Some r -> on_show (e_cfg e) r ->
  exists y, In y (s_out s') /\ said_in_call e v f k r y.
Proof. exact each_keyword_said. Qed.
Print Assumptions c64_each_keyword.

(** ** Cases *)
Definition grammaticalb (v : pyval) : bool :=
  negb (is_kind Kkeyword v) &&
  forallb (fun c => forallb (fun fx => forallb (fun n => negb (is_kind Kkeyword n) ||
    ((is_kind KCall c || is_kind KClassDef c) && (fst fx =? "keywords")%string && match snd fx with VList _ => true | _ => false end &&
     (List.length (filter (fun gy => (fst gy =? "keywords")%string) (Ast.fields c)) =? 1)%nat))
    (snd fx :: as_list (snd fx))) (Ast.fields c)) (walk v).
Lemma assoc_only (fs : list (string * pyval)) f x : In (f, x) fs -> List.length (filter (fun gy => (fst gy =? f)%string) fs) = 1%nat -> assoc f fs = Some x.
Proof.
  intros I L. induction fs as [|[g y] r IH]; [destruct I|]. cbn [filter fst] in L. cbn [assoc]. rewrite String.eqb_sym.
  destruct (String.eqb_spec g f) as [->|N].
  - destruct I as [I|I]; [injection I as ->; reflexivity|]. exfalso. cbn in L.
    assert (J : In (f, x) (filter (fun gy => (fst gy =? f)%string) r)) by (apply filter_In; split; [exact I|apply String.eqb_refl]).
    destruct (filter _ r); [destruct J|discriminate].
  - destruct I as [I|I]; [injection I as -> ->; contradiction|]. apply IH; assumption.
Qed.
Lemma grammaticalb_ok v : grammaticalb v = true -> arguments_in_calls v.
Proof.
  unfold grammaticalb. intros H. apply andb_true_iff in H as [H0 H]. split; [intros K; rewrite K in H0; discriminate|].
  intros c f x n B I J K. apply walk_below in B. rewrite forallb_forall in H. specialize (H c B). rewrite forallb_forall in H.
  specialize (H (f, x) I). rewrite forallb_forall in H. cbn [fst snd] in H. specialize (H n). rewrite K in H. cbn [negb orb] in H.
  assert (H' : is_kind Kkeyword n = true) by exact K.
  specialize (H ltac:(destruct J as [->|J]; [left; reflexivity|right; exact J])). rewrite !andb_true_iff, orb_true_iff in H.
  destruct H as (((C & E) & X) & L). apply String.eqb_eq in E as ->. apply Nat.eqb_eq in L. split; [exact K|]. split; [exact C|].
  unfold items, attr, fld. rewrite (assoc_only _ _ _ I L). destruct J as [->|J]; [|exact J]. destruct n; discriminate.
Qed.

(** The line need not be that of the argument: the argument is reported where the call begins. *)
Theorem c64_keyword_line_refuted : exists e v s m s' y, c_print_visits (e_cfg e) = false /\ placed_tree v /\ arguments_in_calls v /\
  tour e v = Ok s /\ minimum_versions e s = Ok (m, s') /\ 3 <= c_verbose (e_cfg e) /\
  In y (s_out s') /\ y = format_output_line (e_cfg e) "'zipfile.ZipFile(compresslevel)'" (e_path e) (Some 2) None (Some (no2 7)) None /\
  forall n, below n v -> isa Kkeyword n -> as_ostr (attr "arg" n) = Some "compresslevel" -> lineno n = 4.
Proof.
  exists env_parsable, tree_lines, (ended (tour env_parsable tree_lines)).
  eexists _, _, _. split; [reflexivity|]. split; [apply placedb_ok; run|]. split; [apply grammaticalb_ok; run|].
  split; [run|]. split; [run|]. split; [cbn; lia|]. split; [|split; [reflexivity|]].
  - vm_compute. auto 20.
  - intros n B K N. each_node B; first [discriminate K|discriminate N|reflexivity].
Qed.
Print Assumptions c64_keyword_line_refuted.

Example c64_keyword_case : c_print_visits (e_cfg env_parsable) = false /\ placed_tree tree_lines /\ arguments_in_calls tree_lines /\
  3 <= c_verbose (e_cfg env_parsable) /\ outspoken (e_cfg env_parsable) /\ (forall r, on_show (e_cfg env_parsable) r) /\
  (exists s, tour env_parsable tree_lines = Ok s /\ In ("print", Some "flush") (s_kwargs s)) /\
  kwarg_req (bps_of env_parsable) ("print", "flush") = Some (no2 3) /\
  lines_of env_parsable tree_lines =
  ["a.py:::2.0:3.0:print(expr)"; "a.py:2::!2:3.7:'zipfile.ZipFile(compresslevel)'"; "a.py:5::!2:3.3:'print(flush)'"].
Proof.
  split; [reflexivity|]. split; [apply placedb_ok; run|]. split; [apply grammaticalb_ok; run|]. split; [cbn; lia|].
  split; [split; [left; reflexivity|cbn; lia]|]. split; [intros r; left; reflexivity|]. split; [|split; run].
  ok. vm_compute. auto.
Qed.
