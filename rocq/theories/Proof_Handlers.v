(** Every visit is a run. *)
From Verif Require Import PyBase PyLemmas Utility RulesData Rules Config Formats Paths AstKinds Ast State Visitor
  Spec_Base Spec_Visitor Spec_Places Proof_Shapes Proof_Runs.

Ltac d2 :=
  lazymatch goal with
  | |- doat _ _ _ (add_name_res_type _ _) => apply at_name_res_type
  | |- doat _ _ _ (add_target_defs _) => eapply at_target_defs; [eassumption|]
  | |- doat _ _ _ (add_user_def_node _) => eapply at_user_def_node; [eassumption|]
  | |- doat _ _ _ (when_const _ _) => apply at_when_const; intros ?c ?Ec
  | |- _ => d1
  end.
Ltac go := repeat d2.

Section Handlers.
  Variable e : env.
  Notation cfg := (e_cfg e).
  Notation runs := (runs e).
  Notation does := (does e).
  Notation doat := (doat e).

  Lemma h_import (T : pyval -> Prop) s u pos fs : T (VNode KImport u pos fs) -> doat T s (visit_import e pos fs).
  Proof.
    intros H. unfold visit_import. go; [..|destruct (as_ostr (attr "asname" x)) eqn:A; go].
    - eapply at_module; [exact H| |reflexivity]. left. split; [reflexivity|]. exists x. auto.
    - eapply at_member; [exact H| |].
      + left. left. split; [reflexivity|]. exists x. auto.
      + left. split; [reflexivity|]. left. left. split; [reflexivity|]. exists x. auto.
    - apply at_upd, r_module_as_name with (n := VNode KImport u pos fs); [exact H|]. exists x. split; [assumption|].
      split; [destruct (attr "asname" x); try discriminate; injection A as ->; reflexivity|]. left. split; reflexivity.
    - eapply at_user_def; [exact H|]. right. left. split; [left; reflexivity|]. exists x. split; [assumption|].
      destruct (attr "asname" x); try discriminate. injection A as ->. reflexivity.
  Qed.

  Lemma h_import_from (T : pyval -> Prop) s u pos fs : T (VNode KImportFrom u pos fs) ->
    doat T s (visit_import_from e pos fs).
  Proof.
    intros H. unfold visit_import_from. destruct (fld "module" fs) as [| | | | |p| | | |] eqn:M; go.
    destruct (match fld "level" fs with VInt n => 0 <? n | _ => false end); go.
    - eapply at_module; [exact H| |reflexivity]. right. left. split; [reflexivity|exact M].
    - assert (F : imports_from (VNode KImportFrom u pos fs) p (as_str (attr "name" x))).
      { split; [reflexivity|]. split; [exact M|]. exists x. auto. }
      destruct (String.eqb (as_str (attr "name" x)) "*"); go.
      + apply at_upd. eapply r_import_mem_mod; [exact H|exact F].
      + eapply at_module; [exact H| |reflexivity]. right. right. left. eauto.
      + eapply at_member; [exact H|left; right; left; eauto|]. left. split; [reflexivity|]. left. do 2 right. left. eauto.
      + eapply at_member; [exact H|left; right; left; eauto|]. left. split; [reflexivity|]. right. left. eauto.
    - destruct (as_ostr (attr "asname" x)) eqn:A; go.
      { apply at_upd, r_module_as_name with (n := VNode KImportFrom u pos fs); [exact H|]. exists x. split; [assumption|].
        split; [destruct (attr "asname" x); try discriminate; injection A as ->; reflexivity|]. right. split; [reflexivity|].
        exists p. split; [exact M|reflexivity]. }
      eapply at_user_def; [exact H|]. right. left. split; [right; reflexivity|]. exists x. split; [assumption|].
      destruct (attr "asname" x); try discriminate. injection A as ->. reflexivity.
  Qed.

  Section Node.
    Variables (k : kind) (u : N) (pos : option (Z * Z)) (fs : list (string * pyval)) (ks : list (string * ksem)).
    Notation v := (VNode k u pos fs).
    Variable T : pyval -> Prop.
    Hypothesis HT : T v.
    Hypothesis Kids : does T (visit_fields ks).

    Ltac flag := eapply at_flag; [exact HT|].
    Ltac gen := apply at_generic; exact Kids.

    Lemma h_name s : k = KName -> doat T s (visit_name e fs).
    Proof.
      intros K. unfold visit_name. destruct (String.eqb (fstr "id" fs) "long") eqn:L.
      - apply String.eqb_eq in L. go. destruct (is_excluded cfg "long") eqn:X; [go|].
        destruct (mem "long" (s_user_defs s)); go. flag. subst k. apply sh_long; [|exact X].
        apply named_node; [exact L|discriminate].
      - destruct (mem (fstr "id" fs) ["True"; "False"]) eqn:M; go. flag. apply mem_In in M. subst k.
        apply sh_bool_name. destruct M as [M|[M|[]]]; [left|right]; (apply named_node; [auto|discriminate]).
    Qed.

    Lemma h_starred s : k = KStarred -> doat T s (visit_starred e v fs ks).
    Proof.
      intros K. unfold visit_starred. go; [|gen]. flag. apply sh_unpack_assign; [subst k; reflexivity|exact C].
    Qed.

    Lemma h_gen_unp_call s : k = KCall -> counted e v ->
      doat T s (check_gen_unp_call e (flist "args" fs) (flist "keywords" fs)).
    Proof.
      intros K Ct. subst k. unfold check_gen_unp_call, gen_unpacking.
      destruct (needs_gen_unp is_valid_star_unpack (flist "args" fs)) eqn:A; go; flag.
      - apply sh_unpack_args; [reflexivity|exact Ct|].
        exact (needs_gen_unp_not_last _ _ _ star_unpack_load A).
      - apply sh_unpack_kwargs; [reflexivity|exact Ct|].
        exact (needs_gen_unp_not_last _ _ _ kw_unpack_double C).
    Qed.

    Lemma h_gen_unp_seq s : isa KTuple v \/ isa KList v \/ isa KSet v ->
      doat T s (check_gen_unp_seq e (flist "elts" fs)).
    Proof.
      intros K. unfold check_gen_unp_seq, gen_unpacking. go. flag.
      apply existsb_exists in C as (x & I & S). apply (sh_unpack_seq _ _ x K I (star_unpack_load _ S)).
    Qed.

    Lemma h_dict s : k = KDict -> doat T s (visit_dict e v fs ks).
    Proof.
      intros K. unfold visit_dict, check_gen_unp_dict, gen_unpacking. go; [|gen]. flag.
      apply existsb_exists in C as ([a b] & I & S). apply andb_true_iff in S as [S1 S2]. simpl in S1, S2.
      apply is_none_iff in S1 as ->. apply negb_true_iff, is_none_false in S2.
      subst k. apply sh_unpack_dict with (x := b); [reflexivity|exact I|exact S2].
    Qed.

    Lemma h_seq s : isa KTuple v \/ isa KList v \/ isa KSet v -> doat T s (visit_seq e v fs ks).
    Proof. intros K. unfold visit_seq. go; [apply h_gen_unp_seq, K|gen]. Qed.

    Lemma h_set s : k = KSet -> doat T s (visit_set e v fs ks).
    Proof.
      intros K. unfold visit_set. go; [|apply h_seq; subst k; right; right; reflexivity].
      flag. apply sh_set. subst k. reflexivity.
    Qed.

    Lemma h_binop s : k = KBinOp -> doat T s (visit_binop e v fs ks).
    Proof.
      intros K. unfold visit_binop. go; [flag|flag|flag|flag|gen]; subst k.
      - apply andb_true_iff in C as [C1 C2]. destruct (bytes_node_constant _ C1) as (b & B).
        apply sh_bytes_format with (b := b); [reflexivity|exact C2|exact B].
      - apply andb_true_iff in C as [C C3]. apply andb_true_iff in C as [C1 C2].
        apply ostr_eqb_eq in C2. apply sh_bytearray_format; [reflexivity|exact C3|].
        split; [exact C1|]. apply name_id_named; [exact C2|discriminate].
      - apply andb_true_iff in C0 as [C1 C2].
        apply sh_dict_union; [reflexivity|exact C|exact (dict_operand _ _ _ _ Er C1)|exact (dict_operand _ _ _ _ Er0 C2)].
      - subst r. apply and_res_true in Er as [E1 E2].
        apply sh_union; [reflexivity|exact C|apply mem_In; exact C0|exact (none_or_name_type _ _ E1)|
                         exact (none_or_name_type _ _ E2)].
    Qed.

    Lemma h_constant s : k = KConstant -> doat T s (visit_constant e u pos fs).
    Proof.
      intros K. unfold visit_constant. destruct (fld "value" fs) eqn:F; go; try (flag; subst k).
      - apply (sh_bool _ _ b). split; [reflexivity|exact F].
      - apply (sh_bytes _ _ s0). split; [reflexivity|exact F].
      - eapply at_bytes_directive with (b := s0); [exact HT| |apply find_directives_in; assumption|reflexivity].
        subst k. split; [reflexivity|exact F].
      - unfold visit_ellipsis. go. destruct (existsb (N.eqb u) (s_ellipsis s)) eqn:X; go.
        apply at_upd. destruct (existsb (flag_eqb FEllipsis) (s_flags s)); [apply r_nil|].
        apply (r_ellipsis_flag e T v s HT).
        + subst k. split; [reflexivity|exact F].
        + intros I. apply Bool.not_true_iff_false in X. apply X. apply existsb_exists.
          exists u. split; [exact I|apply N.eqb_refl].
    Qed.

    Lemma h_joinedstr s : k = KJoinedStr -> doat T s (visit_joinedstr e v ks).
    Proof.
      intros K. unfold visit_joinedstr. go; [flag|flag|gen]; subst k.
      - apply sh_fstring. reflexivity.
      - subst r. eapply sh_self_doc; [reflexivity|apply mem_In; exact C|exact Er].
    Qed.

    Lemma h_assign s : k = KAssign -> doat T s (visit_assign e v fs ks).
    Proof.
      intros K. unfold visit_assign. go; [| |gen].
      { intros y B. right. right. left. split; [subst k; reflexivity|]. eauto. }
      eapply at_name_res_assign; [exact HT|].
      intros t a I N. left. split; [subst k; reflexivity|]. exists t. auto.
    Qed.

    Lemma h_augassign s : k = KAugAssign -> doat T s (visit_augassign e v fs ks).
    Proof.
      intros K. unfold visit_augassign. go; [| | |gen].
      { intros y B. right. right. right. left. split; [left; subst k; reflexivity|exact B]. }
      { eapply at_name_res_assign; [exact HT|]. intros t a [<-|[]] N. right. split; [left; subst k; reflexivity|exact N]. }
      destruct (is_dict _ (fld "value" fs)) eqn:D; go; flag; subst k.
      - apply sh_dict_merge; [reflexivity|exact NL|exact C| |exact (is_dict_maybe _ _ D)].
        rewrite orb_comm in C0. exact (dict_operand _ _ _ _ Er C0).
      - subst r. apply and_res_true in Er as [E1 E2].
        apply sh_union_assign; [reflexivity|exact NL|exact C|apply mem_In; exact C0|
                                exact (union_type_maybe _ _ E1)|exact (union_type_maybe _ _ E2)].
    Qed.

    Lemma h_annassign s : k = KAnnAssign -> doat T s (visit_annassign e v fs ks).
    Proof.
      intros K. unfold visit_annassign. go; subst k.
      - intros y B. right. right. right. left. split; [right; left; reflexivity|exact B].
      - eapply at_name_res_assign; [exact HT|]. intros t a [<-|[]] N. right. split; [right; left; reflexivity|exact N].
      - destruct (c_eval_annotations cfg) eqn:EA; [gen|]. flag. apply sh_maybe_var; [reflexivity|exact NL|exact EA].
      - flag. apply sh_ann_var; [reflexivity|exact NL].
      - flag. apply sh_var_ann; [reflexivity|exact NL].
      - destruct (ann_is "Final" (fld "annotation" fs)) eqn:A; go; flag.
        + apply sh_final; [reflexivity|exact NL|]. apply ann_is_annotates; [discriminate|exact A].
        + apply sh_literal; [reflexivity|exact NL|]. apply ann_is_annotates; [discriminate|exact C].
    Qed.

    Lemma h_await s : k = KAwait -> doat T s (visit_await e v ks).
    Proof.
      intros K. unfold visit_await. go; [flag| |gen]; subst k.
      - apply sh_await; [reflexivity|exact NL].
      - apply at_upd, r_await with (n := VNode KAwait u pos fs); [exact HT|reflexivity].
    Qed.

    Lemma h_yield s : k = KYield -> doat T s (visit_yield e v ks).
    Proof.
      intros K. unfold visit_yield. go; [|gen]. subst k. apply at_upd, r_yield with (n := VNode KYield u pos fs); [exact HT|reflexivity].
    Qed.

    Lemma h_namedexpr s : k = KNamedExpr -> doat T s (visit_namedexpr e v fs ks).
    Proof.
      intros K. unfold visit_namedexpr. go; [|flag|gen]; subst k.
      { intros y B. right. right. right. left. split; [right; right; reflexivity|exact B]. }
      apply sh_walrus; [reflexivity|exact NL].
    Qed.

    Lemma h_arguments s : k = Karguments -> doat T s (visit_arguments e v fs ks).
    Proof.
      intros K. unfold visit_arguments, add_arg_def. go; [flag|flag| |gen]; subst k.
      - apply sh_posonly; [reflexivity|]. change (flist "posonlyargs" fs <> []).
        intros X. rewrite X in C. discriminate.
      - apply sh_kwonly; [reflexivity|]. change (flist "kwonlyargs" fs <> []).
        intros X. rewrite X in C. discriminate.
      - intros y B. do 8 right. split; [reflexivity|]. exists x. split; [exact B|].
        rewrite !in_app_iff in I. destruct I as [I|[I|[I|[<-|[<-|[]]]]]]; auto.
    Qed.

    Lemma h_nonlocal s : k = KNonlocal -> doat T s (visit_nonlocal e v ks).
    Proof. intros K. unfold visit_nonlocal. go; [flag|gen]. subst k. apply sh_nonlocal; [reflexivity|exact NL]. Qed.
    Lemma h_yieldfrom s : k = KYieldFrom -> doat T s (visit_yieldfrom e v ks).
    Proof. intros K. unfold visit_yieldfrom. go; [flag|gen]. subst k. apply sh_yield_from; [reflexivity|exact NL]. Qed.
    Lemma h_match s : k = KMatch -> doat T s (visit_match e v ks).
    Proof. intros K. unfold visit_match. go; [flag|gen]. subst k. apply sh_match; [reflexivity|exact NL]. Qed.
    Lemma h_typealias s : k = KTypeAlias -> doat T s (visit_typealias e v ks).
    Proof. intros K. unfold visit_typealias. go; [flag|gen]. subst k. apply sh_type_alias; [reflexivity|exact NL]. Qed.

    Lemma fld_below f n : below n (fld f fs) -> below n v.
    Proof.
      unfold fld. destruct (assoc f fs) as [w|] eqn:E; [|intros B; inversion B; discriminate].
      apply assoc_In in E. intros B. exact (below_field _ _ _ _ _ _ _ E B).
    Qed.

    Lemma h_names_as_members s f : isa KRaise v \/ isa KExceptHandler v -> doat T s (add_names_as_members e (fld f fs)).
    Proof.
      intros K. unfold add_names_as_members. go. destruct (name_id x) eqn:N; go.
      eapply at_member; [exact HT| |].
      - left. do 3 right. left. split; [exact K|].
        exists x. split; [apply (fld_below f), walk_below; assumption|apply name_id_is, N].
      - right. left. split; [exact K|]. exists x. split; [apply (fld_below f), walk_below; assumption|].
        split; [apply name_id_is, N|reflexivity].
    Qed.

    Lemma h_raise s : k = KRaise -> doat T s (visit_raise e v fs ks).
    Proof.
      intros K. unfold visit_raise. go; [flag|flag| | |gen]; try (apply h_names_as_members; left); subst k; try reflexivity.
      - apply sh_cause; [reflexivity|exact NL|]. apply is_none_false, negb_true_iff, C.
      - apply sh_from_none; [reflexivity|exact NL|]. apply none_node_literal, C0.
    Qed.

    Lemma h_excepthandler s : k = KExceptHandler -> doat T s (visit_excepthandler e v fs ks).
    Proof.
      intros K. unfold visit_excepthandler.
      go; [flag| | |gen]; [| |apply h_names_as_members; right; subst k; reflexivity]; subst k; cycle 1.
      { intros y B. do 6 right. left. split; [reflexivity|exact B]. }
      apply sh_except_star; [reflexivity|exact NL|apply except_star_text, C].
    Qed.

    Lemma h_comp_scope s : isa KListComp v \/ isa KGeneratorExp v \/ isa KSetComp v \/ isa KDictComp v ->
      doat T s (comp_scope e v fs ks).
    Proof.
      intros K. unfold comp_scope. go; [|gen]. intros y B. do 7 right. left. split; [exact K|]. eauto.
    Qed.
    Lemma h_setcomp s : k = KSetComp -> doat T s (visit_setcomp e v fs ks).
    Proof. intros K. unfold visit_setcomp. go; [flag|apply h_comp_scope]; subst k; [apply sh_set_comp; reflexivity|]. right. right. left. reflexivity. Qed.
    Lemma h_dictcomp s : k = KDictComp -> doat T s (visit_dictcomp e v fs ks).
    Proof. intros K. unfold visit_dictcomp. go; [flag|apply h_comp_scope]; subst k; [apply sh_dict_comp; reflexivity|]. right. right. right. reflexivity. Qed.

    Lemma h_matmult s : k = KMatMult -> doat T s (visit_matmult e v ks).
    Proof. intros K. unfold visit_matmult. go; [flag|gen]. subst k. apply sh_matmult. reflexivity. Qed.

    Lemma h_continue s : k = KContinue -> doat T s (visit_continue e v).
    Proof.
      intros K. unfold visit_continue. go. destruct (rev (s_try_finally s)) as [|[f w] r] eqn:R; go.
      apply andb_true_iff in C as [C1 C2]. apply Z.eqb_eq in C1 as ->. apply Z.eqb_eq in C2 as ->.
      apply at_upd. destruct (existsb (flag_eqb FContinueInFinally) (s_flags s)); [apply r_nil|].
      apply (r_continue e T v s (rev r) HT); [subst k; reflexivity|].
      rewrite <- (rev_involutive (s_try_finally s)), R. reflexivity.
    Qed.

    Lemma h_handle_with s : with_stmt v -> counted e v -> doat T s (handle_with e v fs ks).
    Proof.
      intros K Ct. unfold handle_with. go; [|flag|flag|gen].
      - intros y B. do 5 right. left. split; [exact K|]. eauto.
      - destruct (flist "items" fs) as [|a [|b l]] eqn:F; try discriminate.
        exact (sh_multi_with _ _ a b l K Ct F).
      - destruct (flist "items" fs) as [|a [|b l]] eqn:F; try discriminate.
        exact (sh_with_parens _ _ a b l K Ct F (with_paren_text _ _ C0)).
    Qed.
    Lemma h_with s : k = KWith -> doat T s (visit_with e v fs ks).
    Proof.
      intros K. unfold visit_with. go; [flag|apply h_handle_with; [left|exact NL]]; subst k; [|reflexivity].
      apply sh_with; [reflexivity|exact NL].
    Qed.
    Lemma h_asyncwith s : k = KAsyncWith -> doat T s (visit_asyncwith e v fs ks).
    Proof.
      intros K. unfold visit_asyncwith. go; [flag|apply h_handle_with; [right|exact NL]]; subst k; [|reflexivity].
      apply sh_async_with; [reflexivity|exact NL].
    Qed.

    Lemma h_cond s : doat T s (visit_cond e v ks).
    Proof. unfold visit_cond. go. gen. Qed.

    (** *** Attributes *)

    Lemma dotted_ends l x : ends (dotted (l ++ [Some x])) x.
    Proof. unfold dotted. rewrite somes_app. exact (join_snoc "." (somes l) x). Qed.

    Lemma dotted_tail_ends r l x tl : tl <> [] -> r :: tl = l ++ [Some x] ->
      forall q, ends (dotted (q ++ tl)) x.
    Proof.
      intros N E q. destruct l as [|y l]; injection E as Er Et.
      - congruence.
      - rewrite Et, app_assoc. apply dotted_ends.
    Qed.

    Lemma h_attr_module s l line m : k = KAttribute -> lineno v = line ->
      doat T s (attr_module e (l ++ [Some (fstr "attr" fs)]) line m).
    Proof.
      intros K Li. unfold attr_module. go.
      destruct (hd_is (Some m) (l ++ [Some (fstr "attr" fs)])).
      - eapply at_module; [exact HT| |exact Li]. do 3 right. split; [subst k; reflexivity|apply dotted_ends].
      - destruct (l ++ [Some (fstr "attr" fs)]) as [|[h|] tl] eqn:E; go.
        destruct (assoc h (s_import_mem_mod s)) as [mm|]; go.
        eapply at_member; [exact HT| |]; left; [do 4 right|split; [exact Li|]; left; do 3 right];
          (split; [subst k; reflexivity|]);
        rewrite <- E; change (Some mm :: l ++ [Some (fstr "attr" fs)]) with ((Some mm :: l) ++ [Some (fstr "attr" fs)]);
        apply dotted_ends.
    Qed.

    Lemma add_member_frame m line col s s' : add_member e m line col s = Ok s' -> s_name_res s' = s_name_res s.
    Proof.
      unfold add_member, rd. intros E.
      assert (P : forall lv m en li ve pl s s', verbose_print_v e lv m en li ve pl s = Ok s' -> s_name_res s' = s_name_res s).
      { clear. intros lv m en li ve pl s s' E. unfold verbose_print_v in E.
        destruct (violates e ve) as [[|]|]; try discriminate; [|injection E as <-; auto].
        destruct (_ || _); [injection E as <-; auto|].
        destruct (match en with Some x => _ | None => _ end) as [[? ?]|]; injection E as <-; auto. }
      destruct (mem m (s_user_defs s)); [exact (P _ _ _ _ _ _ _ _ E)|].
      destruct (is_excluded cfg m); [exact (P _ _ _ _ _ _ _ _ E)|].
      destruct (has_key m mod_mem_reqs_x); injection E as <-; auto.
    Qed.

    Lemma assoc_key {A} x (l : list (string * A)) y : assoc x l = Some y -> In x (map fst l).
    Proof. intros E. apply assoc_In in E. exact (in_map fst _ _ E). Qed.

    Lemma h_attr_resolve s l line : k = KAttribute -> lineno v = line ->
      doat T s (attr_resolve e (l ++ [Some (fstr "attr" fs)]) line).
    Proof.
      intros K Li. unfold attr_resolve. go. destruct (l ++ [Some (fstr "attr" fs)]) as [|[h|] tl] eqn:E; go.
      destruct (assoc h (s_name_res s)) as [r|] eqn:R; [|go].
      assert (Us : forall q s1, s_name_res s1 = s_name_res s -> member_used v (dotted (q ++ tl)) s1).
      { intros q s1 Fr. destruct tl as [|t0 tl'] eqn:Tl.
        - right. split; [subst k; reflexivity|]. rewrite Fr. destruct l as [|y l]; [|destruct l; discriminate].
          injection E as <-. exact (assoc_key _ _ _ R).
        - left. do 4 right. split; [subst k; reflexivity|]. rewrite <- Tl in *.
          apply (dotted_tail_ends (Some h) l); [congruence|symmetry; exact E]. }
      assert (Sy : forall m s1, member_used v m s1 -> says_st s1 v m line).
      { intros m s1 [D|D]; left; (split; [exact Li|]).
        - left. do 3 right. subst k. destruct D as [[D _]|[(? & ? & [D _] & _)|[[D _]|[[[D|D] _]|D]]]]; try discriminate D. exact D.
        - do 3 right. left. exact D. }
      apply at_seq.
      - destruct (assoc r (s_import_mem_mod s)) as [mm|]; eapply at_member; try exact HT.
        + apply (Us [Some mm; Some r] s eq_refl).
        + apply Sy, (Us [Some mm; Some r] s eq_refl).
        + apply (Us [Some r] s eq_refl).
        + apply Sy, (Us [Some r] s eq_refl).
      - intros s1 E1.
        assert (Fr : s_name_res s1 = s_name_res s).
        { destruct (assoc r (s_import_mem_mod s)); exact (add_member_frame _ _ _ _ _ E1). }
        go. destruct (split_char "." r); go.
        destruct (assoc s0 (s_name_res s1)) as [r2|]; go.
        eapply at_member; [exact HT| |apply Sy]; exact (Us (Some r2 :: map Some l0) s1 Fr).
    Qed.

    (** The name of an attribute node ends with its attribute. *)
    Lemma gan_step_app man acc n acc' : gan_step man acc n = Ok acc' -> exists x, fst acc' = fst acc ++ x.
    Proof.
      assert (Nil : forall fn : list (option string), exists x, fn = fn ++ x) by (intros fn; exists []; rewrite app_nil_r; reflexivity).
      assert (Co : forall n fn, exists x, gan_coll n fn = fn ++ x).
      { intros m fn. unfold gan_coll. destruct (_ || _); [eexists; reflexivity|apply Nil]. }
      assert (Li : forall n fn, exists x, gan_lit n fn = fn ++ x).
      { intros m fn. unfold gan_lit. destruct (_ || _); [eexists; reflexivity|apply Nil]. }
      assert (Nu : forall n fn fn', gan_num n fn = Ok fn' -> exists x, fn' = fn ++ x).
      { intros m fn fn' E. unfold gan_num in E. destruct fn as [|q r].
        - destruct m; [|discriminate]. injection E as <-. eexists. reflexivity.
        - destruct (negb (hd_is m (q :: r)) && (List.length (q :: r) =? 1)%nat); injection E as <-; [eexists; reflexivity|apply Nil]. }
      unfold gan_step. cbv zeta. intros E.
      destruct n as [| | | | | | | |l|k0 u0 p0 fs0]; try (injection E as <-; apply Nil).
      destruct k0; try (injection E as <-; apply Nil).
      - injection E as <-. cbn [fst]. destruct (name_id _); [rewrite <- app_assoc|]; eexists; reflexivity.
      - injection E as <-. cbn [fst]. destruct (name_id _); [eexists; reflexivity|apply Nil].
      - destruct (snd acc || _); [injection E as <-; apply Nil|].
        destruct (fld "value" fs0); try (injection E as <-; apply Nil); try (injection E as <-; apply Li).
        + destruct (gan_num (Some "int") (fst acc)) eqn:N; [|discriminate]. injection E as <-. exact (Nu _ _ _ N).
        + destruct (gan_num (Some "float") (fst acc)) eqn:N; [|discriminate]. injection E as <-. exact (Nu _ _ _ N).
        + destruct (gan_num None (fst acc)) eqn:N; [|discriminate]. injection E as <-. exact (Nu _ _ _ N).
      - injection E as <-. cbn [fst]. destruct (_ || _); [apply Nil|apply Co].
      - injection E as <-. cbn [fst]. destruct (_ || _); [apply Nil|apply Co].
      - injection E as <-. cbn [fst]. destruct (_ || _); [apply Nil|apply Co].
    Qed.

    Lemma gan_loop_app man l : forall acc acc', gan_loop man l acc = Ok acc' -> exists x, fst acc' = fst acc ++ x.
    Proof.
      induction l as [|n r IH]; intros acc acc' E; simpl in E.
      - injection E as <-. exists []. rewrite app_nil_r. reflexivity.
      - destruct (gan_step man acc n) as [a1|] eqn:S; [|discriminate]. simpl in E.
        destruct (IH _ _ E) as (x & ->). destruct (gan_step_app _ _ _ _ S) as (y & ->).
        exists (y ++ x). rewrite app_assoc. reflexivity.
    Qed.

    Lemma attribute_name_ends man full : k = KAttribute -> get_attribute_name man v = Ok full ->
      exists l, full = l ++ [Some (fstr "attr" fs)].
    Proof.
      intros K E. unfold get_attribute_name in E.
      destruct (gan_loop man (walk v) ([], false)) as [acc|] eqn:L; [|discriminate]. simpl in E. injection E as <-.
      unfold walk in L. rewrite K in L. cbn [levels List.concat app gan_loop] in L.
      destruct (gan_step man ([], false) (VNode KAttribute u pos fs)) as [a1|] eqn:S; [|discriminate].
      simpl in L. destruct (gan_loop_app _ _ _ _ L) as (x & ->).
      unfold gan_step in S. cbv zeta in S. injection S as <-. cbn [fst app].
      destruct (name_id (fld "value" fs)); cbn [app]; eexists; cbn [rev]; reflexivity.
    Qed.

    Lemma h_attribute s : k = KAttribute -> doat T s (visit_attribute e v ks).
    Proof.
      intros K. unfold visit_attribute. apply at_seq'; [|go; gen]. go;
        destruct (attribute_name_ends _ _ K Er) as (l & ->).
      - apply h_attr_module; [exact K|reflexivity].
      - apply h_attr_module; [exact K|reflexivity].
      - eapply at_member; [exact HT| |]; left; [do 4 right|split; [reflexivity|]; left; do 3 right];
          (split; [subst k; reflexivity|apply dotted_ends]).
      - apply h_attr_resolve; [exact K|reflexivity].
    Qed.

    (** *** Keywords *)

    Lemma add_kwargs_frame f a line s s' : add_kwargs e f a line s = Ok s' ->
      s_fns s' = s_fns s /\ s_import_mem_mod s' = s_import_mem_mod s /\ s_name_res s' = s_name_res s.
    Proof.
      unfold add_kwargs, rd. intros E.
      assert (P : forall lv m en li ve pl s s', verbose_print_v e lv m en li ve pl s = Ok s' ->
                  s_fns s' = s_fns s /\ s_import_mem_mod s' = s_import_mem_mod s /\ s_name_res s' = s_name_res s).
      { clear. intros lv m en li ve pl s s' E. unfold verbose_print_v in E.
        destruct (violates e ve) as [[|]|]; try discriminate; [|injection E as <-; auto].
        destruct (_ || _); [injection E as <-; auto|].
        destruct (match en with Some x => _ | None => _ end) as [[? ?]|]; injection E as <-; auto. }
      destruct (mem f (s_user_defs s)); [exact (P _ _ _ _ _ _ _ _ E)|].
      destruct (is_excluded_kwarg cfg f (kw_text a)); [exact (P _ _ _ _ _ _ _ _ E)|].
      destruct (existsb (kw_eqb (f, a)) (s_kwargs s)); injection E as <-; auto.
    Qed.

    Lemma kw_function_frame s s0 g : s_import_mem_mod s = s_import_mem_mod s0 -> s_name_res s = s_name_res s0 ->
      kw_function s g = kw_function s0 g.
    Proof. intros A B. unfold kw_function. rewrite A, B. reflexivity. Qed.

    Lemma h_kwargs s0 line l : k = Kkeyword -> incl l (s_fns s0) ->
      forall s, s_fns s = s_fns s0 -> s_import_mem_mod s = s_import_mem_mod s0 -> s_name_res s = s_name_res s0 ->
      doat T s (each (fun g => add_kwargs e (kw_function s0 g) (as_ostr (fld "arg" fs)) line) l).
    Proof.
      intros K. induction l as [|g r IH]; intros J s F M R; cbn [each]; [go|].
      apply at_seq.
      - unfold add_kwargs. d1. rewrite <- (kw_function_frame s s0) by assumption.
        destruct (mem (kw_function s g) (s_user_defs s)) eqn:U; [go|].
        destruct (is_excluded_kwarg _ _ _) eqn:X; [go|]. destruct (existsb _ _); [go|]. go.
        apply at_upd. eapply r_kwarg; [exact HT|subst k; reflexivity|reflexivity| |apply mem_false, U|exact X].
        rewrite F. apply J. left. reflexivity.
      - intros s1 E. apply add_kwargs_frame in E as (E1 & E2 & E3).
        apply IH; [intros y I; apply J; right; exact I|congruence..].
    Qed.

    Lemma h_keyword s : k = Kkeyword -> doat T s (visit_keyword e v fs ks).
    Proof.
      intros K. unfold visit_keyword. d1. apply at_seq'; [|go; gen].
      apply h_kwargs; try reflexivity; [exact K|apply incl_refl].
    Qed.

    (** *** Definitions *)

    Lemma h_relaxed s : function_def v \/ isa KClassDef v -> counted e v ->
      doat T s (check_relaxed_decorators e (flist "decorator_list" fs)).
    Proof.
      intros K Ct. unfold check_relaxed_decorators. go. flag.
      destruct (relaxed_below _ C) as (m & B & N). exact (sh_relaxed _ _ x m K Ct I NL B N).
    Qed.

    Lemma h_user_func_decos s : function_def v ->
      doat T s (check_user_func_decorators e (flist "decorator_list" fs)).
    Proof.
      intros K. unfold check_user_func_decorators. go. destruct r; go. eapply at_user_func_deco; [exact HT| |].
      - split; [exact K|]. exists x. split; [assumption|]. eapply operand_name_kind; exact Er.
      - right. right. split; [exact K|]. exists x. split; [assumption|]. split; [eapply operand_name_kind; exact Er|reflexivity].
    Qed.

    Lemma h_arg_annotations line args : function_def v -> counted e v ->
      incl args (items "args" (attr "args" v)) -> forall s, doat T s (arg_annotations e line args).
    Proof.
      intros K Ct. induction args as [|a r IH]; intros J s; cbn [arg_annotations]; [go|].
      assert (Ia : In a (items "args" (attr "args" v))) by (apply J; left; reflexivity).
      assert (Jr : incl r (items "args" (attr "args" v))) by (intros y I; apply J; right; exact I).
      destruct (is_none (attr "annotation" a)) eqn:N; [apply IH, Jr|].
      apply is_none_false in N.
      assert (Lit : mentions_literal (attr "annotation" a) -> forall s, doat T s
                 (if c_eval_annotations cfg
                  then set_flag FLiteralAnnotations >> vvl e "literal variable annotations" line (None, Some (3, 8))
                  else set_flag FMaybeAnnotations)).
      { intros M s1. destruct (c_eval_annotations cfg) eqn:EA; go; flag.
        - exact (sh_literal_arg _ _ a K Ct Ia EA M).
        - exact (sh_maybe_arg _ _ a K Ct EA Ia M). }
      go.
      - flag. exact (sh_ann_arg _ _ a K Ct Ia N).
      - destruct (ann_is "Literal" (attr "annotation" a)) eqn:A.
        + apply Lit. left. apply ann_is_annotates; [discriminate|exact A].
        + go. destruct (mem r0 ["Literal"; "typing.Literal"]) eqn:M; [|apply IH, Jr].
          apply Lit. exact (literal_mentioned _ _ _ Er M).
    Qed.
  End Node.

End Handlers.
