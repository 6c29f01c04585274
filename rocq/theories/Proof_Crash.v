(** Where an analysis can end with an exception. Lemmas for C44. *)
From Verif Require Import PyBase PyLemmas Utility RulesData Rules Config Formats Paths AstKinds Ast State Visitor
  Spec_Base Spec_Visitor Spec_Crash Proof_Shapes Proof_Runs Proof_Handlers Proof_Brackets Proof_Tour Proof_Claims Proof_Scopes.

Definition throws (X : exn -> Prop) (a : act) : Prop := forall s x, a s = Err x -> X x.

Section Throws.
  Variable e : env.
  Variable X : exn -> Prop.
  Notation throws := (throws X).
  (** An empty target list makes the violations mode fail. *)
  Hypothesis Targets : c_only_show_violations (e_cfg e) = true -> map snd (c_targets (e_cfg e)) = [] -> X IndexError.

  Lemma th_seq a b : throws a -> throws b -> throws (a >> b).
  Proof. intros A B s x E. unfold seq in E. destruct (a s) eqn:Ea; [exact (B _ _ E)|]. injection E as <-. exact (A _ _ Ea). Qed.
  Lemma th_nop : throws nop.
  Proof. intros s x E. discriminate. Qed.
  Lemma th_upd f : throws (upd f).
  Proof. intros s x E. discriminate. Qed.
  Lemma th_when b a : (b = true -> throws a) -> throws (when b a).
  Proof. destruct b; [auto|]. intros _. apply th_nop. Qed.
  Lemma th_rd f : (forall s, throws (f s)) -> throws (rd f).
  Proof. intros F s x E. exact (F s s x E). Qed.
  Lemma th_with_res {A} (m : res A) f : (forall a, m = Ok a -> throws (f a)) -> (forall x, m = Err x -> X x) -> throws (with_res m f).
  Proof. intros F G. destruct m; [apply F; reflexivity|]. intros s x E. injection E as <-. apply G. reflexivity. Qed.
  Lemma th_each {A} (f : A -> act) l : (forall x, In x l -> throws (f x)) -> throws (each f l).
  Proof. intros F. induction l; [apply th_nop|]. cbn [each]. apply th_seq; [apply F; left; reflexivity|]. apply IHl. intros x I. apply F. right. exact I. Qed.
  Lemma th_scoped a : throws a -> throws (scoped a).
  Proof. intros A s x E. unfold scoped in E. destruct (a s) eqn:Ea; [discriminate|]. injection E as <-. exact (A _ _ Ea). Qed.
  Lemma th_no_line l a : (~ In l (e_nolines e) -> throws a) -> throws (unless_no_line e l a).
  Proof.
    unfold unless_no_line. destruct (is_no_line e l) eqn:N; [intros _; apply th_nop|]. intros A. apply A.
    intros I. unfold is_no_line in N. apply Bool.not_true_iff_false in N. apply N. apply existsb_exists.
    exists l. split; [exact I|apply Z.eqb_refl].
  Qed.
  Lemma th_print lv m en li ve pl : throws (verbose_print_v e lv m en li ve pl).
  Proof.
    intros s x E. unfold verbose_print_v in E. destruct (violates e ve) as [[|]|y] eqn:V; [|discriminate|].
    - destruct (_ || _); [discriminate|]. destruct (match en with Some x => _ | None => _ end) as [[? ?]|]; discriminate.
    - injection E as <-. unfold violates in V. destruct ve; [|discriminate].
      destruct (c_only_show_violations (e_cfg e)) eqn:O; [|discriminate]. cbn in V. unfold aligned_targets in V.
      destruct (map snd (c_targets (e_cfg e))) as [|t [|? ?]] eqn:T; [|discriminate|discriminate].
      injection V as <-. apply Targets; reflexivity.
  Qed.
  Lemma th_flag f : throws (set_flag f).
  Proof. apply th_upd. Qed.
End Throws.

Ltac t1 :=
  lazymatch goal with
  | |- throws _ nop => apply th_nop
  | |- throws _ (_ >> _) => apply th_seq
  | |- throws _ (when _ _) => apply th_when; intros ?C
  | |- throws _ (rd _) => apply th_rd; intros ?s
  | |- throws _ (scoped _) => apply th_scoped
  | |- throws _ (with_res _ _) => apply th_with_res; [intros ?r ?Er|intros ?x ?Er]
  | |- throws _ (unless_no_line _ _ _) => apply th_no_line; intros ?NL
  | |- throws _ (each _ _) => apply th_each; intros ?x ?I
  | |- throws _ (set_flag _) => apply th_flag
  | |- throws _ (verbose_print_v _ _ _ _ _ _ _) => apply th_print; assumption
  | |- throws _ (vv _ _ _) => apply th_print; assumption
  | |- throws _ (vv_pl _ _ _ _) => apply th_print; assumption
  | |- throws _ (vvl _ _ _ _) => apply th_print; assumption
  | |- throws _ (vvl_pl _ _ _ _) => apply th_print; assumption
  | |- throws _ (vv_msg _ _) => apply th_print; assumption
  | |- throws _ (vvl_msg _ _ _) => apply th_print; assumption
  | |- throws _ (vvv _ _ _) => apply th_print; assumption
  | |- throws _ (vvvv _ _) => apply th_print; assumption
  | |- throws _ (upd _) => apply th_upd
  | |- throws _ (let '(_, _) := ?x in _) => destruct x
  | |- throws _ (if ?b then _ else _) => destruct b eqn:?
  | |- throws _ (match ?x with _ => _ end) => destruct x eqn:?
  end.
Ltac tt_ := repeat t1.

(** *** Names of attributes *)

Lemma gan_step_ok man acc n x : gan_step man acc n = Err x ->
  fst acc = [] /\ x = IndexError /\ exists t, constant (VComplex t) n.
Proof.
  unfold gan_step. destruct n as [| | | | | | | | |k u p fs]; try discriminate.
  destruct k; try discriminate.
  destruct (_ || _); [discriminate|]. destruct (fld "value" fs) eqn:F; try discriminate.
  - unfold gan_num. destruct (fst acc); discriminate.
  - unfold gan_num. destruct (fst acc); discriminate.
  - unfold gan_num. destruct (fst acc); [|discriminate]. intros E. injection E as <-.
    split; [reflexivity|]. split; [reflexivity|]. eexists. split; [reflexivity|exact F].
Qed.

Lemma gan_loop_some man l : forall acc x, fst acc <> [] -> gan_loop man l acc <> Err x.
Proof.
  induction l as [|n r IH]; intros acc x N; cbn [gan_loop]; [discriminate|].
  destruct (gan_step man acc n) as [acc'|y] eqn:E; cbn.
  - apply IH. destruct (gan_step_app _ _ _ _ E) as (t & ->). intros A. apply app_eq_nil in A as [A _]. auto.
  - apply gan_step_ok in E as (A & _). contradiction.
Qed.

Lemma gan_loop_err man l : forall acc x, gan_loop man l acc = Err x ->
  x = IndexError /\ exists n t, In n l /\ constant (VComplex t) n.
Proof.
  induction l as [|n r IH]; intros acc x; cbn [gan_loop]; [discriminate|].
  destruct (gan_step man acc n) as [acc'|y] eqn:E; cbn.
  - intros L. destruct (IH _ _ L) as (A & m & t & I & C). split; [exact A|]. exists m, t. split; [right; exact I|exact C].
  - intros L. injection L as <-. apply gan_step_ok in E as (_ & A & t & C). split; [exact A|].
    exists n, t. split; [left; reflexivity|exact C].
Qed.

Lemma dotted_attr_err man v x : dotted_attr man v = Err x ->
  x = IndexError /\ exists n t, below n v /\ constant (VComplex t) n.
Proof.
  unfold dotted_attr, get_attribute_name. destruct (gan_loop man (walk v) ([], false)) as [|y] eqn:L; [discriminate|].
  intros E. injection E as <-. destruct (gan_loop_err _ _ _ _ L) as (A & n & t & I & C). split; [exact A|].
  exists n, t. split; [apply walk_below, I|exact C].
Qed.

Lemma attribute_name_ok man u p fs x : get_attribute_name man (VNode KAttribute u p fs) <> Err x.
Proof.
  unfold get_attribute_name. destruct (gan_loop _ _ _) as [|y] eqn:L; [discriminate|]. exfalso. revert L.
  unfold walk. cbn [levels List.concat app]. cbn [gan_loop gan_step fst snd].
  apply gan_loop_some. destruct (name_id (fld "value" fs)); discriminate.
Qed.
Lemma dotted_attribute_ok man u p fs x : dotted_attr man (VNode KAttribute u p fs) <> Err x.
Proof.
  unfold dotted_attr. pose proof (attribute_name_ok man u p fs) as N.
  destruct (get_attribute_name _ _) as [|y]; [discriminate|]. exfalso. exact (N y eq_refl).
Qed.

Lemma operand_name_ok s v x : operand_name s v <> Err x.
Proof.
  unfold operand_name. destruct v as [| | | | | | | | |k u p fs]; try discriminate. destruct k; try discriminate.
  pose proof (dotted_attribute_ok (s_module_as_name s) u p fs) as N.
  destruct (dotted_attr _ _) as [|y]; [discriminate|]. exfalso. exact (N y eq_refl).
Qed.
Lemma resolve_full_name_ok s v x : resolve_full_name s v <> Err x.
Proof.
  unfold resolve_full_name. destruct v as [| | | | | | | | |k u p fs]; try discriminate. destruct k; try discriminate.
  pose proof (dotted_attribute_ok (s_module_as_name s) u p fs) as N.
  destruct (dotted_attr _ _) as [|y]; [discriminate|]. exfalso. exact (N y eq_refl).
Qed.
Lemma none_or_name_ok s v x : is_none_or_name s v <> Err x.
Proof.
  unfold is_none_or_name. destruct (is_none_node v); [discriminate|]. pose proof (operand_name_ok s v) as N.
  destruct (operand_name s v) as [|y]; [discriminate|]. exfalso. exact (N y eq_refl).
Qed.
Lemma union_type_ok s v x : is_union_type s v <> Err x.
Proof.
  unfold is_union_type. pose proof (operand_name_ok s v) as N.
  destruct (operand_name s v) as [|y]; [discriminate|]. exfalso. exact (N y eq_refl).
Qed.
Lemma and_res_ok (a b : res bool) : (forall x, a <> Err x) -> (forall x, b <> Err x) -> forall x, and_res a b <> Err x.
Proof. intros A B x. destruct a as [[|]|y]; cbn; [apply B|discriminate|exfalso; exact (A y eq_refl)]. Qed.
Lemma assigned_name_ok man v x : assigned_name man v <> Err x.
Proof.
  unfold assigned_name. destruct v as [| | | | | | | | |k u p fs]; try discriminate.
  destruct k; try discriminate.
  - pose proof (dotted_attribute_ok man u p fs) as N. destruct (dotted_attr _ _) as [|y]; [discriminate|]. exfalso. exact (N y eq_refl).
  - destruct (name_id (fld "func" fs)); [discriminate|]. destruct (fld "func" fs) as [| | | | | | | | |k u' p' fs']; try discriminate.
    destruct k; try discriminate. pose proof (dotted_attribute_ok man u' p' fs') as N. cbn [is_kind kind_eqb].
    destruct (dotted_attr _ _) as [|y]; [discriminate|]. exfalso. exact (N y eq_refl).
Qed.

(** *** The handlers *)

Section Handlers.
  Variable e : env.

  Section Node.
    Variables (k : kind) (u : N) (pos : option (Z * Z)) (fs : list (string * pyval)) (ks : list (string * ksem)).
    Notation v := (VNode k u pos fs).
    Variable X : exn -> Prop.
    Notation throws := (throws X).
    Hypothesis Targets : c_only_show_violations (e_cfg e) = true -> map snd (c_targets (e_cfg e)) = [] -> X IndexError.
    Hypothesis Here : forall x, crashes e v x -> X x.
    Hypothesis Kid : forall fk, In fk ks -> throws (visit_field (snd fk)).
    Hypothesis Body : forall f x, In x (k_list (kid f ks)) -> throws (k_visit x) /\ throws (k_gvisit x).

    Lemma th_fields l : incl l ks -> throws (visit_fields l).
    Proof. intros I. unfold visit_fields. apply th_each. intros fk J. apply Kid, I, J. Qed.
    Lemma th_generic w : throws (generic_visit e w ks).
    Proof. unfold generic_visit. tt_. apply th_fields, incl_refl. Qed.
    Lemma th_generic_drop w : throws (generic_visit e w (drop_returns ks)).
    Proof.
      unfold generic_visit. tt_. unfold visit_fields. apply th_each. intros fk I. unfold drop_returns in I.
      apply in_map_iff in I as (fk' & E & I). destruct (String.eqb (fst fk') "returns"); subst fk.
      - apply th_nop.
      - apply Kid, I.
    Qed.

    Lemma th_add_module m l c : throws (add_module e m l c).
    Proof. unfold add_module, add_lc. tt_. Qed.
    Lemma th_add_member m l c : throws (add_member e m l c).
    Proof. unfold add_member, add_lc. tt_. Qed.
    Lemma th_codecs f a w l : throws (check_codecs_function e f a w l).
    Proof.
      unfold check_codecs_function, add_codecs_error_handler, add_codecs_encoding, when_const, add_ceh, add_cenc, add_lc_val, add_lc. tt_.
    Qed.
    Lemma th_typecodes a l c : throws (add_typecodes a l c).
    Proof. unfold add_typecodes, add_array_typecode, add_lc. tt_. Qed.
    Lemma th_user_def_node w : throws (add_user_def_node w).
    Proof. unfold add_user_def_node, add_user_def. tt_. Qed.
    Lemma th_target_defs w : throws (add_target_defs w).
    Proof. unfold add_target_defs. tt_. apply th_user_def_node. Qed.
    Lemma th_assign t w : throws (add_name_res_assign t w).
    Proof.
      unfold add_name_res_assign, add_name_res, add_name_res_type. tt_. exfalso. exact (assigned_name_ok _ _ _ Er).
    Qed.

    Lemma th_annotations l : function_def v -> counted e v -> fld "returns" fs = VNone ->
      incl l (as_list (attr "args" (fld "args" fs))) -> throws (arg_annotations e (lineno v) l).
    Proof.
      intros F Ct R. induction l as [|a l IH]; intros I; cbn [arg_annotations]; [apply th_nop|].
      assert (IHl : throws (arg_annotations e (lineno v) l)) by (apply IH; intros y J; apply I; right; exact J).
      tt_; try exact IHl. destruct (dotted_attr_err _ _ _ Er) as (-> & m & t & B & C).
      apply Here, cr_annotation; [|exact Ct]. split; [exact F|]. split; [exact R|].
      exists a, m, t. split; [apply I; left; reflexivity|]. split; [exact B|exact C].
    Qed.

    Lemma th_functiondef w : function_def v -> counted e v -> w = v -> throws (handle_functiondef e w fs ks).
    Proof.
      intros F Ct ->. unfold handle_functiondef, add_user_def, check_relaxed_decorators, check_user_func_decorators,
        add_user_func_deco, add_lc. tt_; try apply th_generic; try apply th_generic_drop;
        try (exfalso; exact (operand_name_ok _ _ _ Er)).
      apply th_annotations; [exact F|exact Ct| |apply incl_refl].
      match goal with H : negb _ = false |- _ => apply negb_false_iff in H; destruct (fld "returns" fs); try discriminate H; reflexivity end.
    Qed.

    Lemma th_call : k = KCall -> throws (visit_call e v pos fs ks).
    Proof.
      intros K. assert (KC : isa KCall v) by (subst k; reflexivity).
      unfold visit_call, call_name, call_attribute, check_gen_unp_call, gen_unpacking, push_fn, pop_fn.
      apply th_no_line. intros NL. assert (Ct : counted e v) by exact NL.
      apply th_seq; [|apply th_seq; [|apply th_seq]].
      - destruct (fld "func" fs) as [| | | | | | | | |fk fu fp ffs] eqn:Fn; try apply th_nop.
        destruct fk; try apply th_nop.
        + assert (St : mem (as_str (attr "attr" (VNode KAttribute fu fp ffs))) ["strftime"; "strptime"] = true ->
                    forall a, In a (flist "args" fs) -> throws (strftime_arg (pos_line pos) a)).
          { intros M a I. unfold strftime_arg, when_const. destruct (const_val a) as [c|] eqn:Cv; [|apply th_nop].
            assert (Bad : (forall t, c <> VStr t) -> throws (fail TypeError)).
            { intros N s x E. injection E as <-. apply Here, cr_format; [|exact Ct]. split; [exact KC|].
              change (attr "func" v) with (fld "func" fs). rewrite Fn. split; [reflexivity|].
              split; [apply mem_In, M|]. exists a, c. split; [exact I|]. split; [apply const_val_constant, Cv|exact N]. }
            destruct c; try (apply Bad; discriminate). unfold add_strftime_directive, add_lc. tt_. }
          tt_; try (apply St; assumption); try apply th_codecs; try apply th_typecodes.
          exfalso. exact (dotted_attribute_ok _ _ _ _ _ Er).
        + tt_; try apply th_codecs; try apply th_typecodes; apply th_add_member.
      - tt_.
      - apply th_generic.
      - tt_.
    Qed.

    Ltac leaf :=
      first
      [ apply th_generic | apply th_generic_drop | apply th_add_module | apply th_add_member | apply th_codecs | apply th_typecodes
      | apply th_target_defs | apply th_user_def_node | apply th_assign
      | exfalso; match goal with E : _ = Err _ |- _ =>
          first [ exact (operand_name_ok _ _ _ E) | exact (resolve_full_name_ok _ _ _ E) | exact (attribute_name_ok _ _ _ _ _ E)
                | exact (and_res_ok _ _ (none_or_name_ok _ _) (none_or_name_ok _ _) _ E)
                | exact (and_res_ok _ _ (union_type_ok _ _) (union_type_ok _ _) _ E) ] end ].

    Lemma th_handler : throws (handler e k u pos fs ks).
    Proof.
      pose proof th_call as Call.
      assert (Fun : function_def v -> counted e v -> throws (handle_functiondef e v fs ks)) by (intros; apply th_functiondef; auto).
      destruct k; cbn [handler]; try apply th_nop; try apply th_generic; try (apply Call; reflexivity).
      all: unfold visit_import, visit_import_from, visit_name, gen_unpacking, check_gen_unp_seq, check_gen_unp_dict, visit_attribute,
        attr_resolve, attr_module, visit_keyword, add_kwargs, visit_binop, visit_constant, visit_ellipsis, visit_joinedstr,
        add_bytes_directive, visit_assign, visit_augassign, visit_annassign, check_relaxed_decorators, visit_functiondef, visit_asyncfunctiondef, visit_await, visit_classdef, visit_namedexpr, add_arg_def, visit_arguments, visit_nonlocal, visit_yieldfrom, visit_match, visit_typealias, visit_yield, add_names_as_members, visit_raise, visit_excepthandler, comp_scope, visit_setcomp, visit_dictcomp, comp_scope, visit_comprehension, visit_matmult, visit_continue, handle_with, visit_with, visit_asyncwith, handle_with, visit_dict, visit_set, visit_seq, check_gen_unp_seq, check_gen_unp_dict, gen_unpacking, generic_match, check_builtin_generic, generic_match, visit_subscript, visit_cond, handle_for, visit_asyncfor, handle_for, visit_while, visit_try, visit_starred, add_user_def, add_name_res, add_lc; tt_; try leaf.
      all: unfold add_name_res_type, check_relaxed_decorators, add_names_as_members, check_builtin_generic, generic_match,
        add_arg_def; tt_; try leaf; try (eapply Body; eassumption).
      - apply Fun; [right; reflexivity|assumption].
      - apply Fun; [left; reflexivity|assumption].
      - eapply Here, cr_self_doc; [reflexivity| |exact Er]. apply mem_In. assumption.
    Qed.
  End Node.

  (** An exception of a visit comes from a node of the tree. *)
  Definition crash_in (v : pyval) (x : exn) : Prop :=
    x = IndexError /\ no_targets e \/ exists n, below n v /\ crashes e n x.

  Lemma th_mono (X Y : exn -> Prop) a : (forall x, X x -> Y x) -> throws X a -> throws Y a.
  Proof. intros M A s x E. apply M. exact (A s x E). Qed.

  Lemma sem_throws v :
    throws (crash_in v) (k_visit (sem e v)) /\ throws (crash_in v) (k_gvisit (sem e v)) /\
    throws (crash_in v) (visit_field (sem e v)) /\
    (forall x, In x (k_list (sem e v)) -> throws (crash_in v) (k_visit x) /\ throws (crash_in v) (k_gvisit x)).
  Proof.
    induction v as [ |b|z|s|s|s|s| |l IH|k u p fs IH] using pyval_rect';
      try (split; [apply th_nop|split; [apply th_nop|split; [apply th_nop|intros x []]]]; fail).
    - rewrite Forall_forall in IH. cbn [sem k_visit k_gvisit visit_field k_list].
      assert (L : forall x, In x (map (sem e) l) -> throws (crash_in (VList l)) (k_visit x) /\ throws (crash_in (VList l)) (k_gvisit x)).
      { intros x I. apply in_map_iff in I as (y & <- & I). destruct (IH y I) as (A & B & _).
        assert (M : forall x, crash_in y x -> crash_in (VList l) x).
        { intros x [C|(n & Bn & C)]; [left; exact C|]. right. exists n. split; [|exact C]. exact (below_item _ _ _ I Bn). }
        split; [exact (th_mono _ _ _ M A)|exact (th_mono _ _ _ M B)]. }
      split; [apply th_nop|split; [apply th_nop|split; [|exact L]]]. apply th_each. intros x I. apply L, I.
    - rewrite Forall_forall in IH.
      set (w := VNode k u p fs). set (ks := map (fun fx => (fst fx, sem e (snd fx))) fs).
      assert (M : forall f y, In (f, y) fs -> forall x, crash_in y x -> crash_in w x).
      { intros f y I x [C|(n & Bn & C)]; [left; exact C|]. right. exists n. split; [|exact C].
        exact (below_field _ _ _ _ _ _ _ I Bn). }
      assert (Targets : c_only_show_violations (e_cfg e) = true -> map snd (c_targets (e_cfg e)) = [] -> crash_in w IndexError).
      { intros O T. left. split; [reflexivity|]. split; [exact O|]. destruct (c_targets (e_cfg e)); [reflexivity|discriminate]. }
      assert (Here : forall x, crashes e w x -> crash_in w x).
      { intros x C. right. exists w. split; [apply below_here; reflexivity|exact C]. }
      assert (Kid : forall fk, In fk ks -> throws (crash_in w) (visit_field (snd fk))).
      { intros fk I. apply in_map_iff in I as ([f y] & <- & I). cbn [snd fst].
        apply (th_mono _ _ _ (M f y I)), (IH (f, y) I). }
      assert (Body : forall f x, In x (k_list (kid f ks)) -> throws (crash_in w) (k_visit x) /\ throws (crash_in w) (k_gvisit x)).
      { intros f x I. unfold kid in I. destruct (assoc f ks) as [y|] eqn:A; [|destruct I].
        assert (J : exists g z, In (g, z) fs /\ y = sem e z).
        { clear -A. subst ks. induction fs as [|[g z] r IH]; [discriminate|]. cbn [map assoc fst snd] in A.
          destruct (String.eqb f g); [injection A as <-; exists g, z; split; [left|]; reflexivity|].
          destruct (IH A) as (g' & z' & I & E). exists g', z'. split; [right; exact I|exact E]. }
        destruct J as (g & z & J & ->). destruct (IH (g, z) J) as (_ & _ & _ & L). destruct (L x I) as [L1 L2].
        split; [exact (th_mono _ _ _ (M g z J) L1)|exact (th_mono _ _ _ (M g z J) L2)]. }
      assert (H : throws (crash_in w) (handler e k u p fs ks)) by exact (th_handler k u p fs ks _ Targets Here Kid Body).
      split; [exact H|split; [exact (th_generic ks _ Kid w)|split; [exact H|intros x []]]].
  Qed.

  (** The end of the tour fails like printing does. *)
  Lemma tour_crash v x : tour e v = Err x -> crash_in v x.
  Proof.
    intros E. assert (T : throws (crash_in v) (fun s => (visit e v >> after_visit_all e) s)); [|exact (T _ _ E)].
    apply th_seq; [exact (proj1 (sem_throws v))|].
    assert (Targets : c_only_show_violations (e_cfg e) = true -> map snd (c_targets (e_cfg e)) = [] -> crash_in v IndexError).
    { intros O T. left. split; [reflexivity|]. split; [exact O|]. destruct (c_targets (e_cfg e)); [reflexivity|discriminate]. }
    unfold after_visit_all, drop_user_def. tt_.
  Qed.
End Handlers.
