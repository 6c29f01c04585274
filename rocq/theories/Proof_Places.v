(** The positions in front of findings are positions in the source. Lemmas for C64. *)
From Verif Require Import PyBase PyLemmas Utility RulesData Rules Config Formats Paths AstKinds Ast State Visitor MinVersions
  Spec_Base Spec_Visitor Spec_Places Proof_Utility Proof_Shapes Proof_Runs Proof_Claims.

Section Places.
  Variables (e : env) (root : pyval).
  Notation cfg := (e_cfg e).
  Hypothesis NV : c_print_visits cfg = false.
  Notation L := (line_of root).

  (** Everything recorded has a place. *)
  Definition recorded (s : st) (x : string) : Prop :=
    In x (s_strftimes s) \/ In x (s_bytesdirs s) \/ In x (s_typecodes s) \/ In (VStr x) (s_cehs s) \/ In (VStr x) (s_cencs s) \/
    In x (s_modules s) \/ In x (s_members s) \/ In x (s_ufds s).
  Definition keyed (s : st) (x : string) : Prop := exists p, In (EStr x, p) (s_lcs s).
  Definition good (s : st) : Prop :=
    L (s_line s) /\ (forall x l c, In (x, (l, c)) (s_lcs s) -> L l) /\ (forall o, In o (s_out s) -> points_into e root o) /\
    forall x, recorded s x -> keyed s x.
  Definition keeps (a : act) : Prop := forall s s', a s = Ok s' -> good s -> good s'.

  Lemma keeps_nop : keeps nop.
  Proof. intros s s' E. injection E as <-. auto. Qed.
  Lemma keeps_fail x : keeps (fail x).
  Proof. intros s s' E. discriminate. Qed.
  Lemma keeps_seq a b : keeps a -> keeps b -> keeps (a >> b).
  Proof. intros X Y s s' E G. destruct (seq_ok _ _ _ _ E) as (s1 & E1 & E2). exact (Y _ _ E2 (X _ _ E1 G)). Qed.
  Lemma keeps_when b a : keeps a -> keeps (when b a).
  Proof. destruct b; [auto|]. intros _. apply keeps_nop. Qed.
  Lemma keeps_rd f : (forall s, good s -> keeps (f s)) -> keeps (rd f).
  Proof. intros F s s' E G. exact (F s G s s' E G). Qed.
  Lemma keeps_with_res {A} (m : res A) f : (forall a, keeps (f a)) -> keeps (with_res m f).
  Proof. intros F. destruct m; [apply F|apply keeps_fail]. Qed.
  Lemma keeps_each {A} (f : A -> act) l : (forall x, In x l -> keeps (f x)) -> keeps (each f l).
  Proof.
    induction l as [|x r IH]; intros F; [apply keeps_nop|]. cbn [each]. apply keeps_seq; [apply F; left; reflexivity|].
    apply IH. intros y I. apply F. right. exact I.
  Qed.
  Definition calm (f : st -> st) : Prop := forall s, s_line (f s) = s_line s /\ s_lcs (f s) = s_lcs s /\ s_out (f s) = s_out s.
  Lemma keeps_upd f : calm f -> (forall s x, recorded (f s) x -> recorded s x) -> keeps (upd f).
  Proof.
    intros H R s s' E (G1 & G2 & G3 & G4). injection E as <-. destruct (H s) as (A & B & C). unfold good, keyed. rewrite A, B, C.
    repeat split; auto. intros x I. exact (G4 x (R s x I)).
  Qed.
  Lemma keeps_record f x l c : calm f -> (forall s y, recorded (f s) y -> y = x \/ recorded s y) -> L l ->
    keeps (upd f >> add_lc (EStr x) l c).
  Proof.
    intros H R Ll s s' E (G1 & G2 & G3 & G4). injection E as <-. destruct (H s) as (A & B & C). unfold good, keyed.
    cbn [s_line s_lcs s_out u_lcs]. rewrite A, B, C. split; [exact G1|]. split; [|split; [exact G3|]].
    - intros y l' c' [I|I]; [injection I as _ <- _; exact Ll|exact (G2 y l' c' I)].
    - intros y I. destruct (R s y I) as [->|J]; [eexists; left; reflexivity|]. destruct (G4 y J) as (p & Ip). exists p. right. exact Ip.
  Qed.
  Lemma keeps_record_val f v l : calm f -> (forall s y, recorded (f s) y -> v = VStr y \/ recorded s y) -> L l ->
    keeps (upd f >> add_lc_val v l).
  Proof.
    intros H R Ll. assert (N : (forall y, v <> VStr y) -> keeps (upd f)).
    { intros N. apply keeps_upd; [exact H|]. intros s x I. destruct (R s x I) as [->|J]; [destruct (N x eq_refl)|exact J]. }
    destruct v; cbn [add_lc_val]; try (apply keeps_seq; [apply N; discriminate|apply keeps_nop]).
    apply keeps_record; [exact H| |exact Ll]. intros s0 y I. destruct (R s0 y I) as [E|J]; [injection E as ->; auto|auto].
  Qed.
  Lemma keeps_flag f : keeps (set_flag f).
  Proof. apply keeps_upd; [intros s; destruct (existsb _ _); repeat split; reflexivity|]. intros s x. destruct (existsb _ _); exact (fun H => H). Qed.
  Lemma keeps_scoped a : keeps a -> keeps (scoped a).
  Proof. intros X s s' E G. unfold scoped in E. destruct (a s) as [s1|] eqn:E1; [|discriminate]. injection E as <-. exact (X _ _ E1 G). Qed.
  Lemma keeps_no_line l a : keeps a -> keeps (unless_no_line e l a).
  Proof. intros X. unfold unless_no_line. destruct (is_no_line e l); [apply keeps_nop|exact X]. Qed.
  Lemma keeps_lc x l c : L l -> keeps (add_lc x l c).
  Proof.
    intros H s s' E (A & B & C & D). injection E as <-. split; [exact A|]. split; [|split; [exact C|]]; cbn.
    - intros y l' c' [I|I]; [injection I as _ <- _; exact H|exact (B y l' c' I)].
    - intros y I. destruct (D y I) as (p & J). exists p. right. exact J.
  Qed.
  Lemma keeps_print lv msg ent li ve pl : (forall z, li = Some z -> z = -1 \/ L z) -> keeps (verbose_print_v e lv msg ent li ve pl).
  Proof.
    intros H s s' E G. unfold verbose_print_v in E.
    destruct (violates e ve) as [[|]|]; try discriminate; [|injection E as <-; exact G].
    destruct (skip_output_line cfg || (c_verbose cfg <? lv)); [injection E as <-; exact G|].
    destruct G as (A & B & C & D).
    assert (W : forall (q : option (Z * option Z)), (forall l c, q = Some (l, c) -> L l) ->
      forall z, (let '(l, c) := match q with Some (l, c) => (Some l, c) | None => (li, None) end in
        match l with Some l => if l =? -1 then None else Some l | None => if 2 <? c_verbose cfg then Some (s_line s) else None end) = Some z -> L z).
    { intros q Q z Z. destruct q as [[l c]|].
      - destruct (l =? -1); [discriminate|]. injection Z as <-. exact (Q l c eq_refl).
      - destruct li as [l|].
        + destruct (Z.eqb_spec l (-1)) as [X|X]; [discriminate|]. injection Z as <-. destruct (H l eq_refl); [contradiction|assumption].
        + destruct (2 <? c_verbose cfg); [|discriminate]. injection Z as <-. exact A. }
    set (q := match ent with Some x => if 2 <? c_verbose cfg then lookup_lc x s else None | None => None end) in *.
    assert (Q : forall l c, q = Some (l, c) -> L l).
    { intros l c Qe. unfold q in Qe. destruct ent as [x|]; [|discriminate]. destruct (2 <? c_verbose cfg); [|discriminate].
      unfold lookup_lc in Qe. destruct (find _ (s_lcs s)) as [[y [l' c']]|] eqn:Fi; [|discriminate]. injection Qe as <- <-.
      apply find_some in Fi as [Fi _]. exact (B y l' c' Fi). }
    specialize (W q Q). clearbody q. destruct q as [[l c]|]; injection E as <-; (split; [exact A|]; split; [exact B|]; split; [|exact D]);
      intros o I; (apply in_app_or in I as [I|[<-|[]]]; [exact (C o I)|]); do 5 eexists; (split; [reflexivity|]); exact W.
  Qed.
  Lemma keeps_generic v ks : (forall l c, pos_of v = Some (l, c) -> L l) -> keeps (visit_fields ks) -> keeps (generic_visit e v ks).
  Proof.
    intros P X. unfold generic_visit. rewrite NV. cbn [andb when]. apply keeps_seq.
    - destruct (pos_of v) as [[l c]|]; [|apply keeps_nop]. intros s s' E (A & B & C & D). injection E as <-. split; [exact (P l c eq_refl)|]. auto.
    - apply keeps_seq; [apply keeps_upd; [repeat split; reflexivity|auto]|]. apply keeps_seq; [apply keeps_nop|]. apply keeps_seq; [exact X|].
      apply keeps_upd; [repeat split; reflexivity|auto].
  Qed.
End Places.

Ltac rec_tac := intros ?s ?y; unfold recorded; cbn -[In app]; rewrite ?in_app_iff; cbn [In]; intuition (subst; auto).
Ltac k1 :=
  lazymatch goal with
  | |- keeps _ _ nop => apply keeps_nop
  | |- keeps _ _ (fail _) => apply keeps_fail
  | |- keeps _ _ (upd _ >> add_lc (EStr _) _ _) => apply keeps_record; [intros ?s; repeat split; reflexivity|rec_tac|]
  | |- keeps _ _ (upd _ >> add_lc_val _ _) => apply keeps_record_val; [intros ?s; repeat split; reflexivity|rec_tac|]
  | |- keeps _ _ (_ >> _) => apply keeps_seq
  | |- keeps _ _ (set_flag _) => apply keeps_flag
  | |- keeps _ _ (when _ _) => apply keeps_when
  | |- keeps _ _ (rd _) => apply keeps_rd; intros ?s ?G
  | |- keeps _ _ (scoped _) => apply keeps_scoped
  | |- keeps _ _ (with_res _ _) => apply keeps_with_res; intros ?r
  | |- keeps _ _ (unless_no_line _ _ _) => apply keeps_no_line
  | |- keeps _ _ (each _ _) => apply keeps_each; intros ?x ?I
  | |- keeps _ _ (vv _ _ _) => apply keeps_print; discriminate
  | |- keeps _ _ (vv_pl _ _ _ _) => apply keeps_print; discriminate
  | |- keeps _ _ (vvv _ _ _) => apply keeps_print; discriminate
  | |- keeps _ _ (vv_msg _ _) => apply keeps_print; discriminate
  | |- keeps _ _ (vvvv _ _) => apply keeps_print; discriminate
  | |- keeps _ _ (vvl _ _ _ _) => apply keeps_print; intros ?z ?Ez; injection Ez as <-; right
  | |- keeps _ _ (vvl_pl _ _ _ _) => apply keeps_print; intros ?z ?Ez; injection Ez as <-; right
  | |- keeps _ _ (vvl_msg _ _ _) => apply keeps_print; intros ?z ?Ez; injection Ez as <-; right
  | |- keeps _ _ (add_lc _ _ _) => apply keeps_lc
  | |- keeps _ _ (upd _) => apply keeps_upd; [intros ?s; repeat split; reflexivity|intros ?s ?x ?R; exact R]
  | |- keeps _ _ (if ?b then _ else _) => destruct b
  | |- keeps _ _ (match ?x with _ => _ end) => destruct x eqn:?
  end.

Section Node.
  Variables (e : env) (root : pyval) (k : kind) (u : N) (pos : option (Z * Z)) (fs : list (string * pyval)) (ks : list (string * ksem)).
  Notation v := (VNode k u pos fs).
  Hypothesis NV : c_print_visits (e_cfg e) = false.
  Hypothesis PT : placed_tree root.
  Hypothesis BV : below v root.
  Hypothesis KF : keeps e root (visit_fields ks).
  Hypothesis KD : keeps e root (visit_fields (drop_returns ks)).
  Hypothesis KT : forall x, In x (k_list (kid "finalbody" ks)) -> keeps e root (k_visit x).
  Hypothesis KG : forall x, In x (k_list (kid "body" ks)) -> keeps e root (k_gvisit x).

  Lemma own_pos l c : pos = Some (l, c) -> line_of root l.
  Proof. intros P. right. exists v, c. auto. Qed.
  Lemma own_line : ~ In k unplaced -> line_of root (pos_line pos).
  Proof.
    intros N. assert (Q := proj1 PT _ _ _ _ BV N). assert (W := own_pos). destruct (pos) as [[l c]|]; [|congruence]. exact (W l c eq_refl).
  Qed.
  Lemma deco_line d : In d (flist "decorator_list" fs) -> line_of root (lineno d).
  Proof.
    intros I. assert (Q := proj1 (proj2 PT) v d BV I). destruct d as [ | | | | | | | | |k' u' p' fs']; try (cbn in Q; congruence).
    destruct p' as [[l c]|]; [|cbn in Q; congruence]. right. exists (VNode k' u' (Some (l, c)) fs'), c. split; [|reflexivity].
    unfold flist in I. destruct (fld "decorator_list" fs) as [ | | | | | | | |ds|] eqn:F; try destruct I.
    eapply below_trans; [|exact BV]. unfold fld in F. destruct (assoc "decorator_list" fs) as [w|] eqn:A; [|discriminate]. subst w.
    apply assoc_In in A. eapply below_field; [exact A|]. eapply below_item; [exact I|]. apply below_here. reflexivity.
  Qed.
  Lemma first_line l : first_deco_line e (flist "decorator_list" fs) = Some l -> line_of root l.
  Proof. intros F. apply find_some in F as [F _]. apply in_map_iff in F as (d & <- & I). exact (deco_line d I). Qed.
  Lemma name_line f x i : In x (walk (fld f fs)) -> name_id x = Some i -> line_of root (lineno x).
  Proof.
    intros I N. apply walk_below in I. assert (B : below x root).
    { eapply below_trans; [|exact BV]. unfold fld in I. destruct (assoc f fs) as [w|] eqn:A; [|inversion I; discriminate].
      apply assoc_In in A. exact (below_field _ _ _ _ _ _ _ A I). }
    destruct x as [ | | | | | | | | |k' u' p' fs']; try discriminate. destruct k'; try discriminate.
    assert (Q := proj1 PT _ _ _ _ B ltac:(cbn; intuition discriminate)). destruct p' as [[l c]|]; [|congruence].
    right. exists (VNode KName u' (Some (l, c)) fs'), c. auto.
  Qed.
  Lemma keeps_annotations l args : line_of root l -> keeps e root (arg_annotations e l args).
  Proof. intros Ll. induction args as [|a r IH]; cbn [arg_annotations]; repeat k1; try exact IH; exact Ll. Qed.

End Node.

  Ltac place :=
    lazymatch goal with
    | OL : line_of _ (pos_line ?p) |- line_of _ (pos_line ?p) => exact OL
    | OL : line_of _ (pos_line ?p) |- line_of _ (lineno (VNode _ _ ?p _)) => exact OL
    | G : good _ _ ?s |- line_of _ (s_line ?s) => exact (proj1 G)
    | |- line_of _ (lineno _) => first [eapply deco_line; eassumption | eapply name_line; eassumption]
    | H : first_deco_line _ _ = Some ?l |- line_of _ ?l => eapply first_line; eassumption
    end.
  Ltac leaf :=
    lazymatch goal with
    | |- keeps _ _ (generic_visit _ _ _) => apply keeps_generic; [assumption|cbn [pos_of without_returns]; assumption|assumption]
    | |- keeps _ _ (arg_annotations _ _ _) => apply keeps_annotations
    | |- keeps _ _ (k_visit _) => match goal with KT : forall x, In x (k_list (kid "finalbody" _)) -> _ |- _ => apply KT; assumption end
    | |- keeps _ _ (k_gvisit _) => match goal with KG : forall x, In x (k_list (kid "body" _)) -> _ |- _ => apply KG; assumption end
    end.
  Ltac unf :=
    unfold visit_import, visit_import_from, visit_name, gen_unpacking, check_gen_unp_seq, check_gen_unp_dict, visit_attribute,
      attr_resolve, attr_module, visit_binop, visit_constant, visit_ellipsis, visit_joinedstr, visit_keyword, visit_call,
      call_name, call_attribute, strftime_arg, add_strftime_directive, when_const, check_gen_unp_call, push_fn, pop_fn,
      add_bytes_directive, visit_assign, visit_augassign, visit_annassign, check_relaxed_decorators, check_user_func_decorators,
      visit_functiondef, visit_asyncfunctiondef, handle_functiondef, visit_await, visit_classdef, visit_namedexpr,
      visit_arguments, visit_nonlocal, visit_yieldfrom, visit_match, visit_typealias, visit_yield,
      visit_raise, visit_excepthandler, visit_setcomp, visit_dictcomp, comp_scope, visit_comprehension, visit_matmult,
      visit_continue, visit_with, visit_asyncwith, handle_with, visit_dict, visit_set, visit_seq, check_gen_unp_seq,
      check_gen_unp_dict, gen_unpacking, check_builtin_generic, visit_subscript, visit_cond, visit_asyncfor,
      handle_for, visit_while, visit_try, visit_starred, add_arg_def, check_relaxed_decorators, check_user_func_decorators,
      check_builtin_generic.
  Ltac deep := repeat first [k1 | leaf | place | progress unfold add_module, add_member, add_kwargs, add_user_func_deco, add_typecodes, check_codecs_function,
      add_name_res_type, add_user_def_node, add_target_defs, add_name_res_assign, add_names_as_members, generic_match, add_user_def, add_name_res,
      add_codecs_error_handler, add_codecs_encoding, when_const, add_ceh, add_cenc, add_array_typecode, gen_unpacking].


Lemma keeps_handler e root k u pos fs ks : c_print_visits (e_cfg e) = false -> placed_tree root -> below (VNode k u pos fs) root ->
  keeps e root (visit_fields ks) -> keeps e root (visit_fields (drop_returns ks)) ->
  (forall x, In x (k_list (kid "finalbody" ks)) -> keeps e root (k_visit x)) ->
  (forall x, In x (k_list (kid "body" ks)) -> keeps e root (k_gvisit x)) ->
  keeps e root (handler e k u pos fs ks).
Proof.
  intros NV PT BV KF KD KT KG.
  assert (OP := own_pos root k u pos fs BV). assert (OL := own_line root k u pos fs PT BV).
  destruct k; cbn [handler]; try (apply keeps_generic; [exact NV|cbn [pos_of]; exact OP|exact KF]); try apply keeps_nop.
  all: try specialize (OL ltac:(cbn; intuition discriminate)).
  all: unf; deep.
Qed.

(** ** Trees *)
Section Trees.
  Variables (e : env) (root : pyval).
  Hypothesis NV : c_print_visits (e_cfg e) = false.
  Hypothesis PT : placed_tree root.
  Notation keeps := (keeps e root).

  Definition kept (k : ksem) : Prop :=
    keeps (k_visit k) /\ keeps (k_gvisit k) /\ keeps (visit_field k) /\ forall x, In x (k_list k) -> keeps (k_visit x) /\ keeps (k_gvisit x).
  Lemma kept_other : kept KOther.
  Proof. split; [apply keeps_nop|]. split; [apply keeps_nop|]. split; [apply keeps_nop|intros x []]. Qed.
  Lemma kept_kids ks : (forall f k, In (f, k) ks -> kept k) ->
    keeps (visit_fields ks) /\ keeps (visit_fields (drop_returns ks)) /\ forall f, kept (kid f ks).
  Proof.
    intros H. split; [|split].
    - apply keeps_each. intros [f k] I. exact (proj1 (proj2 (proj2 (H f k I)))).
    - apply keeps_each. intros [f k] I. unfold drop_returns in I. apply in_map_iff in I as ([f' k'] & E & I). cbn [fst snd] in E.
      destruct (f' =? "returns")%string; injection E as <- <-; [apply keeps_nop|]. exact (proj1 (proj2 (proj2 (H f' k' I)))).
    - intros f. unfold kid. destruct (assoc f ks) as [k|] eqn:A; [|apply kept_other]. apply assoc_In in A. exact (H f k A).
  Qed.
  Lemma kept_sem v : (forall n, below n v -> below n root) -> kept (sem e v).
  Proof.
    induction v as [ |b|z|s|s|s|s| |l IH|k u p fs IH] using pyval_rect'; intros B; try apply kept_other.
    - rewrite Forall_forall in IH. cbn [sem].
      assert (K : forall x, In x (map (sem e) l) -> keeps (k_visit x) /\ keeps (k_gvisit x)).
      { intros x I. apply in_map_iff in I as (y & <- & I). destruct (IH y I) as (A & C & _); [|auto]. intros n Bn. apply B. exact (below_item _ _ _ I Bn). }
      split; [apply keeps_nop|]. split; [apply keeps_nop|]. split; [|exact K]. apply keeps_each. intros x I. apply K, I.
    - rewrite Forall_forall in IH. cbn [sem]. set (ks := map _ fs).
      assert (BV : below (VNode k u p fs) root) by (apply B, below_here; reflexivity).
      destruct (kept_kids ks) as (A & C & D).
      { intros f k' I. apply in_map_iff in I as ([g y] & E & I). injection E as <- <-. apply (IH (g, y) I).
        intros n Bn. apply B. exact (below_field _ _ _ _ _ _ _ I Bn). }
      assert (S : keeps (handler e k u p fs ks)).
      { apply keeps_handler; try assumption.
        - intros x I. apply (D "finalbody"), I.
        - intros x I. apply (D "body"), I. }
      split; [exact S|]. split; [|split; [exact S|intros x []]]. apply keeps_generic; [exact NV|cbn; exact (own_pos root k u p fs BV)|exact A].
  Qed.
  Lemma good_init : good e root init_st.
  Proof. split; [left; reflexivity|]. split; [intros x l c []|]. split; [intros o []|]. intros x R. unfold recorded in R. cbn in R. tauto. Qed.
End Trees.
Lemma good_tour e v s : c_print_visits (e_cfg e) = false -> placed_tree v -> tour e v = Ok s -> good e v s.
Proof.
  intros NV PT T. unfold tour in T. assert (H : keeps e v (visit e v >> after_visit_all e)); [|exact (H _ _ T (good_init e v))].
  apply keeps_seq; [exact (proj1 (kept_sem e v NV PT v (fun n B => B)))|]. unfold after_visit_all, drop_user_def. repeat k1.
  all: apply keeps_upd; [intros z; repeat split; reflexivity|]; intros z y; unfold recorded; cbn -[In filter]; rewrite !filter_In; tauto.
Qed.

(** ** The verdict *)
Lemma good_run e root : forall l m s m' s', run_steps e l m s = Ok (m', s') -> good e root s -> good e root s'.
Proof.
  induction l as [|[v i ent|x] l IH]; intros m s m' s' H G; cbn [run_steps] in H; [injection H as _ <-; exact G| |discriminate].
  unfold bindr in H. destruct (add_versions e v i ent m s) as [[m1 s1]|] eqn:A; [|discriminate]. cbn [fst snd] in H. apply (IH _ _ _ _ H).
  unfold add_versions, bindr in A. destruct (violates e (Some v)) as [b|]; [|discriminate].
  match type of A with match ?a with _ => _ end = _ => destruct a as [s2|] eqn:R; [|discriminate] end.
  destruct (combine2 _ _ _ _); [|discriminate]. injection A as _ <-.
  assert (K : keeps e root (match i with Some i => when b (upd (fun s => u_info (add_info v i (s_info s)) s) >>
    match ent with Some _ => verbose_print_v e 2 i ent None (Some v) None | None => nop end) | None => nop end)).
  { destruct i; [|apply keeps_nop]. apply keeps_when, keeps_seq; [apply keeps_upd; [repeat split; reflexivity|auto]|].
    destruct ent; [apply keeps_print; discriminate|apply keeps_nop]. }
  exact (K s s2 R G).
Qed.
Lemma good_lines e v s m s' : c_print_visits (e_cfg e) = false -> placed_tree v -> tour e v = Ok s -> minimum_versions e s = Ok (m, s') ->
  forall line, In line (s_out s') -> points_into e v line.
Proof.
  intros NV PT T M. assert (G := good_tour e v s NV PT T). unfold minimum_versions, bindr in M.
  match type of M with match ?a with _ => _ end = _ => destruct a as [s1|] eqn:A; [|discriminate] end.
  assert (G1 : good e v s1).
  { destruct (has_flag s FPrintV3); cbn [when] in A; [|injection A as <-; exact G].
    eapply keeps_print; [|exact A|exact G]. intros z E. injection E as <-. left. reflexivity. }
  exact (proj1 (proj2 (proj2 (good_run e v _ _ _ _ _ M G1)))).
Qed.
