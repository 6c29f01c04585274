(** The visits that open and close a frame are runs, and so is every visit. *)
From Verif Require Import PyBase PyLemmas Utility RulesData Rules Config Formats Paths AstKinds Ast State Visitor
  Spec_Base Spec_Visitor Spec_Places Proof_Shapes Proof_Runs Proof_Handlers.
Section Brackets.
  Variable e : env.
  Notation cfg := (e_cfg e).
  Notation runs := (runs e).
  Notation does := (does e).
  Notation doat := (doat e).

  Lemma fields_drop (T : pyval -> Prop) ks : does T (visit_fields ks) ->
    (forall fk, In fk ks -> does T (visit_field (snd fk))) -> does T (visit_fields (drop_returns ks)).
  Proof.
    intros _ D. unfold visit_fields, drop_returns. apply each_does. intros fk I.
    apply in_map_iff in I as (fk0 & <- & I). destruct (String.eqb (fst fk0) "returns").
    - cbn. apply at_does. intros s. go.
    - apply D, I.
  Qed.

  Section Bracket.
    Variables (k : kind) (u : N) (pos : option (Z * Z)) (fs : list (string * pyval)) (ks : list (string * ksem)).
    Notation v := (VNode k u pos fs).
    Variable T : pyval -> Prop.
    Hypothesis HT : T v.
    Hypothesis Kid : forall fk, In fk ks -> does (own_in v) (visit_field (snd fk)).

    Lemma kids_in : does (own_in v) (visit_fields ks).
    Proof. apply each_does. exact Kid. Qed.
    Lemma kids_inside : does (inside v) (visit_fields ks).
    Proof. refine (does_mono e _ _ _ _ kids_in). intros n I. right. exact I. Qed.
    Lemma self_inside : inside v v.
    Proof. left. reflexivity. Qed.

    Ltac flag := eapply at_flag; [exact self_inside|].

    Lemma h_functiondef_body s : function_def v -> counted e v -> doat (inside v) s (handle_functiondef e v fs ks).
    Proof.
      intros K Ct. unfold handle_functiondef. go.
      - eapply at_user_def; [exact self_inside|]. left. split; [unfold function_def in K; tauto|reflexivity].
      - destruct (String.eqb (fstr "name" fs) "__dir__" && _) eqn:D; go; flag.
        + apply andb_true_iff in D as [D _]. apply String.eqb_eq in D.
          apply sh_module_dir; [exact K|exact Ct| |].
          * rewrite !andb_true_iff in C. tauto.
          * apply (as_str_inv (fld "name" fs)); [exact D|discriminate].
        + apply andb_true_iff in C0 as [C0 _]. apply String.eqb_eq in C0.
          apply sh_module_getattr; [exact K|exact Ct| |].
          * rewrite !andb_true_iff in C. tauto.
          * apply (as_str_inv (fld "name" fs)); [exact C0|discriminate].
      - destruct (first_deco_line e (flist "decorator_list" fs)) as [dl|] eqn:F; go.
        + flag. destruct (first_deco_counted _ _ _ F) as (d & I & Cd). exact (sh_func_deco _ _ d K Ct I Cd).
        + apply (h_relaxed e k u pos fs); [exact self_inside|left; exact K|exact Ct].
        + eapply (h_user_func_decos e k u pos fs); [exact self_inside|exact K].
      - destruct (negb (c_eval_annotations cfg) && negb (is_none (fld "returns" fs))); apply at_generic.
        + apply fields_drop; [exact kids_inside|]. intros fk I. refine (does_mono e _ _ _ _ (Kid fk I)).
          intros n J. right. exact J.
        + exact kids_inside.
      - destruct (negb (is_none (fld "returns" fs))) eqn:R; go.
        + flag. apply sh_ann_ret; [exact K|exact Ct|]. apply is_none_false, negb_true_iff, R.
        + apply (h_arg_annotations e k u pos fs (inside v) self_inside (lineno v) _ K Ct (incl_refl _)).
    Qed.

    Lemma h_functiondef s : k = KFunctionDef -> doat T s (visit_functiondef e v fs ks).
    Proof.
      intros K. unfold visit_functiondef. apply at_no_line. intros NL. apply at_rd.
      intros s' E. destruct (seq_ok _ _ _ _ E) as (s1 & E1 & E2). injection E2 as <-.
      assert (KF : function_def v) by (left; subst k; reflexivity).
      exact (r_function e T v s s1 HT ltac:(subst k; reflexivity) (h_functiondef_body s KF NL s1 E1)).
    Qed.

    Lemma h_asyncfunctiondef s : k = KAsyncFunctionDef -> doat T s (visit_asyncfunctiondef e v fs ks).
    Proof.
      intros K. unfold visit_asyncfunctiondef. apply at_no_line. intros NL. apply at_rd.
      intros s' E.
      assert (KA : isa KAsyncFunctionDef v) by (subst k; reflexivity).
      assert (KF : function_def v) by (right; exact KA).
      destruct (seq_ok _ _ _ _ E) as (s1 & E1 & X1). clear E.
      destruct (seq_ok _ _ _ _ X1) as (s2 & E2 & X2). clear X1.
      destruct (seq_ok _ _ _ _ X2) as (s3 & E3 & X3). clear X2.
      destruct (seq_ok _ _ _ _ X3) as (s4 & E4 & X4). clear X3.
      destruct (seq_ok _ _ _ _ X4) as (s5 & E5 & E6). clear X4.
      injection E5 as <-. injection E6 as <-.
      assert (R : runs (inside v) s s3).
      { eapply r_cat; [exact (h_functiondef_body s KF NL s1 E1)|].
        eapply r_cat; [|exact (at_print e _ _ _ _ _ _ _ _ _ E3)].
        refine (at_flag e (inside v) s1 v FCoroutines self_inside _ s2 E2).
        apply sh_async_def; [exact KA|exact NL]. }
      apply (r_async_function e T v s s4 HT KA).
      unfold rd, when in E4. destruct ((s_seen_yield s <? s_seen_yield s3) && (s_seen_await s <? s_seen_await s3)) eqn:C.
      - destruct (seq_ok _ _ _ _ E4) as (s6 & E6 & E7).
        eapply r_cat; [|exact (at_print e _ _ _ _ _ _ _ _ _ E7)].
        unfold set_flag, upd in E6. injection E6 as <-.
        destruct (existsb (flag_eqb FAsyncGenerator) (s_flags s3)); [exact R|].
        apply andb_true_iff in C as [C1 C2]. apply Z.ltb_lt in C1, C2.
        exact (r_async_gen e (inside v) v s s3 (fun m I => I) KA NL R C1 C2).
      - injection E4 as <-. exact R.
    Qed.

    Lemma h_comprehension s : k = Kcomprehension -> doat T s (visit_comprehension e v fs ks).
    Proof.
      intros K. assert (KC : isa Kcomprehension v) by (subst k; reflexivity).
      unfold visit_comprehension. apply at_seq'.
      - go. eapply at_flag; [exact HT|]. apply sh_async_comp; [exact KC|].
        change (attr "is_async" v) with (fld "is_async" fs). destruct (fld "is_async" fs); try discriminate.
        apply Z.eqb_eq in C as ->. reflexivity.
      - apply at_does. clear s. intros s. apply at_rd. intros s' E.
        destruct (seq_ok _ _ _ _ E) as (s1 & E1 & X1). clear E.
        destruct (seq_ok _ _ _ _ X1) as (s2 & E2 & E3). clear X1. injection E3 as <-.
        apply (r_comprehension e T v s s2 HT KC).
        assert (R : runs (inside v) s s1) by exact (at_generic e _ s v ks kids_inside _ E1).
        unfold rd, when in E2. destruct (s_seen_await s <? s_seen_await s1) eqn:C.
        + destruct (seq_ok _ _ _ _ E2) as (s6 & E6 & E7).
          eapply r_cat; [|exact (at_print e _ _ _ _ _ _ _ _ _ E7)].
          unfold set_flag, upd in E6. injection E6 as <-.
          destruct (existsb (flag_eqb FAwaitInComprehension) (s_flags s1)); [exact R|].
          apply Z.ltb_lt in C. exact (r_await_comp e (inside v) v s s1 (fun m I => I) KC R C).
        + injection E2 as <-. exact R.
    Qed.

    Lemma h_subscript s : k = KSubscript -> doat T s (visit_subscript e v fs ks).
    Proof.
      intros K. assert (KS : isa KSubscript v) by (subst k; reflexivity).
      unfold visit_subscript. apply at_no_line. intros NL. apply at_seq'.
      - unfold check_builtin_generic.
        assert (G : forall (o : isa KName (fld "value" fs) \/ isa KAttribute (fld "value" fs)) n s,
                 doat T s (generic_match e n)).
        { clear s. intros o n s. unfold generic_match. destruct (c_eval_annotations cfg) eqn:EA; go.
          - destruct (mem n (s_user_defs s)); go. eapply at_flag; [exact HT|].
            exact (sh_generic _ _ KS NL EA o).
          - eapply at_flag; [exact HT|]. exact (sh_maybe_generic _ _ KS NL EA o). }
        go. destruct r as [n|]; go.
        pose proof (operand_name_kind _ _ _ Er) as O.
        destruct (mem n builtin_generic_annotation_types); [exact (G O _ _)|].
        destruct (assoc n (s_import_mem_mod s)); go; [exact (G O _ _)|].
        destruct (assoc n (s_name_res_type s)); go. exact (G O _ _).
      - intros s0 s' E. unfold seq at 1, upd in E.
        exact (r_subscript e T v s0 s' HT KS (at_generic e _ _ v ks kids_in _ E)).
    Qed.

    Lemma h_for s : isa KFor v \/ isa KAsyncFor v -> doat T s (handle_for e v fs ks).
    Proof.
      intros K. unfold handle_for. apply at_no_line. intros NL s' E.
      unfold seq at 1, upd at 1 in E. unfold scoped in E.
      match type of E with match ?a ?b with _ => _ end = _ => destruct (a b) as [s1|] eqn:E1; [|discriminate] end.
      injection E as <-.
      destruct (seq_ok _ _ _ _ E1) as (s2 & E2 & X2). clear E1.
      destruct (seq_ok _ _ _ _ X2) as (s3 & E3 & X3). clear X2.
      destruct (seq_ok _ _ _ _ X3) as (s4 & E4 & E5). clear X3. injection E5 as <-.
      change (s_user_defs (u_seen_for (s_seen_for s + 1) s)) with (s_user_defs s).
      apply r_scoped. apply (r_for e T v s s4 HT K).
      eapply r_cat.
      { refine (at_target_defs e (inside v) _ v _ self_inside _ _ E2). intros y B. do 4 right. left. split; [exact K|exact B]. }
      eapply r_cat; [|exact (at_generic e _ _ v ks kids_inside _ E4)].
      destruct (name_id (fld "target" fs)) eqn:Nt; [|injection E3 as <-; apply r_nil].
      unfold rd, when in E3. destruct (iter_has_dict _ _); injection E3 as <-; [eapply r_name_res; [exact self_inside|]|apply r_nil].
      right. split; [tauto|exact (name_id_is _ _ Nt)].
    Qed.

    Lemma h_asyncfor s : k = KAsyncFor -> doat T s (visit_asyncfor e v fs ks).
    Proof.
      intros K. unfold visit_asyncfor. go.
      - eapply at_flag; [exact HT|]. apply sh_async_for; [subst k; reflexivity|exact NL].
      - apply h_for. right. subst k. reflexivity.
    Qed.

    Lemma h_while s : k = KWhile -> doat T s (visit_while e v ks).
    Proof.
      intros K. unfold visit_while. apply at_no_line. intros NL s' E. unfold seq at 1, upd at 1 in E.
      destruct (seq_ok _ _ _ _ E) as (s1 & E1 & E2). injection E2 as <-.
      apply (r_while e T v s s1 HT); [subst k; reflexivity|].
      exact (at_generic e _ _ v ks kids_inside _ E1).
    Qed.

    Lemma h_try s : k = KTry ->
      (forall x, In x (k_list (kid "finalbody" ks)) ->
        does (fun m => exists y, In y (items "finalbody" v) /\ own y m) (k_visit x)) ->
      doat T s (visit_try e v ks).
    Proof.
      intros K F. assert (KT : isa KTry v) by (subst k; reflexivity).
      unfold visit_try. apply at_no_line. intros NL s' E. unfold seq at 1, upd at 1 in E.
      destruct (seq_ok _ _ _ _ E) as (s1 & E1 & X1). clear E.
      unfold seq at 1, upd at 1 in X1.
      eapply r_cat.
      - apply (r_finally e T v s s1 HT KT NL). exact (at_each e _ _ _ _ F _ E1).
      - apply (r_try e T v _ s' HT KT). exact (at_generic e _ _ v ks kids_in _ X1).
    Qed.

    Lemma h_class s : k = KClassDef ->
      (forall x, In x (k_list (kid "body" ks)) ->
        does (fun m => exists y, In y (items "body" v) /\ own_in y m) (k_gvisit x)) ->
      doat T s (visit_classdef e v fs ks).
    Proof.
      intros K F. assert (KC : isa KClassDef v) by (subst k; reflexivity).
      unfold visit_classdef. apply at_no_line. intros NL s' E.
      apply (r_class e T v s s' HT KC). revert s' E.
      set (T' := fun m => inside v m \/ exists b, In b (items "body" v) /\ own_in b m).
      assert (HT' : T' v) by (left; exact self_inside).
      match goal with |- forall s', ?a s = Ok s' -> _ => change (doat T' s a) end.
      go.
      - eapply at_user_def; [exact HT'|]. left. split; [right; right; exact KC|reflexivity].
      - destruct (first_deco_line e (flist "decorator_list" fs)) as [dl|] eqn:D; go.
        + eapply at_flag; [exact HT'|]. destruct (first_deco_counted _ _ _ D) as (d & I & Cd).
          exact (sh_class_deco _ _ d KC NL I Cd).
        + apply (h_relaxed e k u pos fs); [exact HT'|right; exact KC|exact NL].
      - eapply at_flag; [exact HT'|]. apply (sh_metaclass _ _ x KC NL I).
        apply kw_arg_is; [discriminate|exact C].
      - apply at_generic. refine (does_mono e _ _ _ _ kids_inside). intros n I. left. exact I.
      - refine (does_at e _ _ _ (does_mono e _ _ _ _ (F x I))). intros n J. right. exact J.
    Qed.

    Lemma h_call s : k = KCall -> doat T s (visit_call e v pos fs ks).
    Proof.
      intros K. assert (KC : isa KCall v) by (subst k; reflexivity).
      unfold visit_call. apply at_no_line. intros NL.
      assert (Rest : forall s, doat (inside v) s
                (check_gen_unp_call e (flist "args" fs) (flist "keywords" fs) >> generic_visit e v ks)).
      { clear s. intros s. go; [apply (h_gen_unp_call e k u pos fs); [exact self_inside|exact K|exact NL]|].
        apply at_generic, kids_inside. }
      assert (Split : forall (a : act) s s', (a >> check_gen_unp_call e (flist "args" fs) (flist "keywords" fs) >>
                        generic_visit e v ks >> pop_fn) s = Ok s' ->
                exists s1 s2, a s = Ok s1 /\ (check_gen_unp_call e (flist "args" fs) (flist "keywords" fs) >>
                               generic_visit e v ks) s1 = Ok s2 /\ s' = u_fns (removelast (s_fns s2)) s2).
      { intros a x x' E. destruct (seq_ok _ _ _ _ E) as (s1 & E1 & X1).
        destruct (seq_ok _ _ _ _ X1) as (s2 & E2 & X2). destruct (seq_ok _ _ _ _ X2) as (s3 & E3 & E4).
        injection E4 as <-. exists s1, s3. split; [exact E1|]. split; [|reflexivity].
        unfold seq. rewrite E2. exact E3. }
      assert (Other : ~ (isa KName (fld "func" fs) \/ isa KAttribute (fld "func" fs)) ->
                doat T s (nop >> check_gen_unp_call e (flist "args" fs) (flist "keywords" fs) >>
                          generic_visit e v ks >> pop_fn)).
      { intros N s' E. destruct (Split _ _ _ E) as (s1 & s2 & E1 & E2 & ->). injection E1 as <-.
        exact (r_call_other e T v s s2 HT KC N (Rest _ _ E2)). }
      destruct (fld "func" fs) as [| | | | | | | | |fk fu fp ffs] eqn:Fn; try (apply Other; unfold isa; simpl; intuition discriminate).
      destruct fk; try (apply Other; unfold isa; simpl; intuition discriminate); clear Other.
      - (* an attribute *)
        intros s' E. destruct (Split _ _ _ E) as (s1 & s2 & E1 & E2 & ->). clear E.
        unfold call_attribute in E1. destruct (seq_ok _ _ _ _ E1) as (s3 & E3 & E4). clear E1.
        eapply r_cat.
        + instantiate (1 := s3). revert s3 E3 E4. intros s3 E3 _. revert s3 E3.
          match goal with |- forall s', ?a s = Ok s' -> _ => change (doat T s a) end.
          assert (St : mem (as_str (attr "attr" (VNode KAttribute fu fp ffs))) ["strftime"; "strptime"] = true ->
                    forall s, doat T s (each (strftime_arg (pos_line pos)) (flist "args" fs))).
          { intros M s'. unfold strftime_arg. go. destruct c as [ | | | | |txt| | | |]; go. eapply at_strftime_directive; [exact HT| |reflexivity].
            split; [exact KC|]. change (attr "func" v) with (fld "func" fs). rewrite Fn. split; [reflexivity|].
            split; [apply mem_In, M|]. exists x, txt. split; [assumption|]. split; [apply const_val_constant, Ec|].
            apply find_directives_in. assumption. }
          destruct (str_val _) as [t|] eqn:Sv.
          * destruct (_ && _) eqn:Fm; [go|apply at_when; intros M; apply St, M]. eapply at_flag; [exact HT|].
            apply andb_true_iff in Fm as [Fm _]. apply String.eqb_eq in Fm.
            apply (sh_format _ _ t KC NL); try change (attr "func" v) with (fld "func" fs); try rewrite Fn.
            -- reflexivity.
            -- apply as_str_inv; [exact Fm|discriminate].
            -- apply str_val_constant, Sv.
            -- apply format27_auto_field; assumption.
          * apply at_when. intros M. apply St, M.
        + unfold rd, with_res in E4.
          destruct (dotted_attr (s_module_as_name s3) (VNode KAttribute fu fp ffs)) as [d|] eqn:Ed; [|discriminate].
          destruct (seq_ok _ _ _ _ E4) as (s4 & E5 & E6). injection E5 as <-.
          apply (r_call e T v d s3 s2 HT KC).
          { right. change (attr "func" v) with (fld "func" fs). rewrite Fn. split; [reflexivity|].
            exists (s_module_as_name s3). exact Ed. }
          assert (Ends : ends d (as_str (attr "attr" (VNode KAttribute fu fp ffs)))).
          { unfold dotted_attr in Ed. destruct (get_attribute_name _ _) as [full|] eqn:G; [|discriminate].
            injection Ed as <-. destruct (attribute_name_ends KAttribute fu fp ffs _ full eq_refl G) as (l & ->). apply dotted_ends. }
          eapply r_cat; [|exact (Rest _ _ E2)]. clear E4 E2. revert s1 E6.
          match goal with |- forall s', ?a ?s = Ok s' -> _ => change (doat (inside v) s a) end. go.
          * refine (at_codecs e (inside v) _ v _ _ self_inside _ eq_refl). split; [exact KC|]. right.
            change (attr "func" v) with (fld "func" fs). rewrite Fn. split; [reflexivity|]. exact Ends.
          * refine (at_typecodes e (inside v) _ v _ _ self_inside _ eq_refl). intros t a I Ca. split; [exact KC|].
            split; [|exists a; split; [exact I|exact Ca]]. right. right. apply String.eqb_eq in C.
            change (attr "func" v) with (fld "func" fs). rewrite Fn. split; [reflexivity|]. rewrite <- C. exact Ends.
      - (* a name *)
        intros s' E. destruct (Split _ _ _ E) as (s1 & s2 & E1 & E2 & ->). clear E.
        unfold call_name in E1. destruct (seq_ok _ _ _ _ E1) as (s3 & E3 & E4). clear E1. injection E3 as <-.
        apply (r_call e T v (fstr "id" ffs) s s2 HT KC).
        { left. change (attr "func" v) with (fld "func" fs). rewrite Fn. split; reflexivity. }
        eapply r_cat; [|exact (Rest _ _ E2)]. clear E2. revert s1 E4.
        match goal with |- forall s', ?a ?s = Ok s' -> _ => change (doat (inside v) s a) end.
        assert (Cl : forall n, fstr "id" ffs = n -> n <> "" -> calls n v).
        { intros n En Nn. split; [exact KC|]. change (attr "func" v) with (fld "func" fs). rewrite Fn.
          apply named_node; assumption. }
        go.
        + eapply at_member; [exact self_inside| |]; left; [do 2 right; left|split; [reflexivity|]; do 2 right; left];
            (split; [exact KC|]); change (attr "func" v) with (fld "func" fs); rewrite Fn; split; reflexivity.
        + assert (Cd : forall f z, ((exists p, imp_st z (fstr "id" ffs) p /\ f = p +++ "." +++ fstr "id" ffs) \/
                    ali_st z (fstr "id" ffs) f) ->
                    doat (inside v) z (check_codecs_function e f (flist "args" fs) (flist "keywords" fs) (pos_line pos))).
          { intros f z W. refine (at_codecs e (inside v) z v f _ self_inside _ eq_refl). split; [exact KC|]. left.
            exists (fstr "id" ffs). split; [|exact W]. change (attr "func" v) with (fld "func" fs). rewrite Fn. split; reflexivity. }
          match goal with |- context [assoc ?x (s_import_mem_mod ?z)] => destruct (assoc x (s_import_mem_mod z)) eqn:A1 end.
          { apply Cd. left. eexists. split; [exact A1|reflexivity]. }
          match goal with |- context [assoc ?x (s_module_as_name ?z)] => destruct (assoc x (s_module_as_name z)) eqn:A2 end;
            [apply Cd; right; exact A2|go].
        + destruct (String.eqb (fstr "id" ffs) "print") eqn:P.
          { flag. apply sh_print; [|exact NL]. apply Cl; [apply String.eqb_eq, P|discriminate]. }
          destruct (_ || _) eqn:Ar; [refine (at_typecodes e (inside v) _ v _ _ self_inside _ eq_refl)|].
          { intros t a I Ca. split; [exact KC|]. split; [|exists a; split; [exact I|exact Ca]].
            change (attr "func" v) with (fld "func" fs). rewrite Fn. apply orb_true_iff in Ar as [Ar|Ar].
            - left. apply String.eqb_eq in Ar. split; [reflexivity|exact Ar].
            - right. left. exists (fstr "id" ffs). split; [split; reflexivity|]. unfold ali_st.
              destruct (assoc _ _); [|discriminate]. apply String.eqb_eq in Ar as ->. reflexivity. }
          clear Ar.
          destruct (String.eqb (fstr "id" ffs) "pow" && _) eqn:W.
          { apply andb_true_iff in W as [W _]. apply String.eqb_eq in W.
            destruct (flist "args" fs) as [|a [|b [|c [|? ?]]]] eqn:Ar; go. flag.
            rewrite !andb_true_iff in C. destruct C as [[C1 C2] C3].
            apply (sh_pow _ _ a b c); [apply Cl; [exact W|discriminate]|exact NL|exact Ar|..];
              auto using int_node_literal, neg_node_literal. }
          destruct (String.eqb (fstr "id" ffs) "super" && _) eqn:S; go. flag.
          apply andb_true_iff in S as [S1 S2]. apply String.eqb_eq in S1.
          apply sh_super; [apply Cl; [exact S1|discriminate]|exact NL|].
          change (flist "args" fs = []). destruct (flist "args" fs); [reflexivity|discriminate].
    Qed.
  End Bracket.

  (** *** Every visit *)

  Definition fine (v : pyval) : Prop :=
    does (own v) (k_visit (sem e v)) /\ does (own_in v) (k_gvisit (sem e v)).

  Definition kids (fs : list (string * pyval)) : list (string * ksem) := map (fun fx => (fst fx, sem e (snd fx))) fs.

  Lemma kid_list f fs x : In x (k_list (kid f (kids fs))) ->
    exists y g l, In (g, VList l) fs /\ In y l /\ x = sem e y /\ In y (flist f fs).
  Proof.
    unfold kid, kids, flist, fld. induction fs as [|[g w] r IH]; cbn [map assoc fst snd]; [intros []|].
    destruct (String.eqb f g); [|intros I; destruct (IH I) as (y & h & l & A & B & C & D); exists y, h, l; simpl; auto].
    destruct w; cbn; try (intros []). intros I. apply in_map_iff in I as (y & <- & I).
    exists y, g, l. simpl. auto.
  Qed.

  Lemma handler_runs k u p fs :
    (forall fk, In fk (kids fs) -> does (own_in (VNode k u p fs)) (visit_field (snd fk))) ->
    (forall f l y, In (f, VList l) fs -> In y l -> fine y) ->
    does (own (VNode k u p fs)) (handler e k u p fs (kids fs)).
  Proof.
    intros Kid Items.
    assert (HT : own (VNode k u p fs) (VNode k u p fs)) by constructor.
    assert (Br : forall f, (k = KTry \/ k = KClassDef) -> forall x, In x (k_list (kid f (kids fs))) ->
              exists y, In y (flist f fs) /\ x = sem e y /\ fine y).
    { intros f _ x I. destruct (kid_list _ _ _ I) as (y & g & l & A & B & C & D). exists y.
      split; [exact D|]. split; [exact C|]. exact (Items _ _ _ A B). }
    assert (Kids : ~ In k brackets -> does (own (VNode k u p fs)) (visit_fields (kids fs))).
    { intros N. refine (does_mono e _ _ _ _ (each_does e _ _ _ Kid)).
      intros n (f & x & I & O). exact (own_field _ _ _ _ _ _ _ N I O). }
    apply at_does. intros s.
    assert (Try : k = KTry -> doat (own (VNode k u p fs)) s (visit_try e (VNode k u p fs) (kids fs))).
    { intros K. apply (h_try k u p fs _ _ HT Kid s K). intros x I.
      destruct (Br "finalbody" (or_introl K) x I) as (y & Iy & -> & F).
      refine (does_mono e _ _ _ _ (proj1 F)). intros n O. exists y. split; [exact Iy|exact O]. }
    assert (Cls : k = KClassDef -> doat (own (VNode k u p fs)) s (visit_classdef e (VNode k u p fs) fs (kids fs))).
    { intros K. apply (h_class k u p fs _ _ HT Kid s K). intros x I.
      destruct (Br "body" (or_intror K) x I) as (y & Iy & -> & F).
      refine (does_mono e _ _ _ _ (proj2 F)). intros n O. exists y. split; [exact Iy|exact O]. }
    pose proof (h_functiondef k u p fs _ _ HT Kid s) as B1.
    pose proof (h_asyncfunctiondef k u p fs _ _ HT Kid s) as B2.
    pose proof (h_comprehension k u p fs _ _ HT Kid s) as B3.
    pose proof (h_for k u p fs _ _ HT Kid s) as B4.
    pose proof (h_asyncfor k u p fs _ _ HT Kid s) as B5.
    pose proof (h_while k u p fs _ _ HT Kid s) as B6.
    pose proof (h_subscript k u p fs _ _ HT Kid s) as B7.
    pose proof (h_call k u p fs _ _ HT Kid s) as B8.
    assert (Gen : ~ In k brackets -> doat (own (VNode k u p fs)) s (generic_visit e (VNode k u p fs) (kids fs))).
    { intros N. apply at_generic, Kids, N. }
    clear Br Kid Items.
    Ltac out := unfold brackets; simpl; intuition discriminate.
    destruct k; cbn [handler];
      try (apply Gen; out); try apply at_nop;
      first [ exact (Try eq_refl) | exact (Cls eq_refl) | exact (B1 eq_refl) | exact (B2 eq_refl) | exact (B3 eq_refl)
            | exact (B4 (or_introl eq_refl)) | exact (B5 eq_refl) | exact (B6 eq_refl) | exact (B7 eq_refl)
            | exact (B8 eq_refl) | idtac ]; clear Try Cls B1 B2 B3 B4 B5 B6 B7 B8 Gen;
      (first [ exact (h_import e _ s u p fs HT) | exact (h_import_from e _ s u p fs HT) | idtac]); try (specialize (Kids ltac:(out))).
    all: first
      [ eapply h_name | eapply h_starred | eapply h_dict | eapply h_set | eapply h_seq | eapply h_binop | eapply h_constant
      | eapply h_joinedstr | eapply h_assign | eapply h_augassign | eapply h_annassign | eapply h_await | eapply h_yield
      | eapply h_namedexpr | eapply h_arguments | eapply h_nonlocal | eapply h_yieldfrom | eapply h_match
      | eapply h_typealias | eapply h_raise | eapply h_excepthandler | eapply h_setcomp | eapply h_dictcomp
      | eapply h_comp_scope | eapply h_matmult | eapply h_continue | eapply h_with | eapply h_asyncwith | eapply h_cond
      | eapply h_attribute | eapply h_keyword | apply at_scoped, at_generic ]; eauto.
    all: unfold isa; simpl; tauto.
  Qed.

  Lemma fine_all v : fine v /\ (forall y, In y (as_list v) -> fine y).
  Proof.
    induction v as [ |b|z|s|s|s|s| |l IH|k u p fs IH] using pyval_rect';
      try (split; [split; apply at_does; intros ? ; apply at_nop|intros y []]).
    - split; [split; apply at_does; intros ?; apply at_nop|]. rewrite Forall_forall in IH.
      intros y I. exact (proj1 (IH y I)).
    - split; [|intros y []]. rewrite Forall_forall in IH.
      assert (Items : forall f l y, In (f, VList l) fs -> In y l -> fine y).
      { intros f l y I J. exact (proj2 (IH _ I) y J). }
      assert (Kid : forall fk, In fk (kids fs) -> does (own_in (VNode k u p fs)) (visit_field (snd fk))).
      { intros fk I. apply in_map_iff in I as ([f x] & <- & I). cbn [fst snd].
        assert (M : forall n, own x n -> own_in (VNode k u p fs) n) by (intros n O; exists f, x; auto).
        refine (does_mono e _ _ _ M _).
        destruct x; cbn [sem visit_field]; try (apply at_does; intros ?; apply at_nop).
        - apply each_does. intros y J. apply in_map_iff in J as (w & <- & J).
          refine (does_mono e _ _ _ _ (proj1 (Items _ _ _ I J))). intros n O. exact (own_item _ _ _ J O).
        - exact (proj1 (proj1 (IH _ I))). }
      split; cbn [sem k_visit k_gvisit].
      + exact (handler_runs k u p fs Kid Items).
      + apply at_does. intros s. apply at_generic. exact (each_does e _ _ _ Kid).
  Qed.

  Lemma visit_runs v : does (own v) (visit e v).
  Proof. exact (proj1 (proj1 (fine_all v))). Qed.
End Brackets.
