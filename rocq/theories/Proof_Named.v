(** Backports and exclusions for names a source does not say. Lemmas for C87. *)
From Verif Require Import PyBase PyLemmas Utility RulesData Rules Config Formats Paths AstKinds Ast State Visitor MinVersions
  Spec_Base Spec_Visitor Spec_Rules Spec_Named Proof_Shapes Proof_Rules.

Section Agree.
  Variables (c : config) (x b : list string) (path : string) (src : option string) (nol : list Z).
  Variables (sd : list (string * string) -> pyval -> res bool) (dump : pyval -> string).
  Notation e := (mkEnv c path src nol sd dump).
  Notation e' := (mkEnv (w_exclusions_set x (w_backports b c)) path src nol sd dump).
  Variable ok : string -> Prop.
  Hypothesis ok_types : forall t, In t literal_types -> ok t.
  Hypothesis ok_dot : forall m n, ok m -> ok n -> ok (m +++ "." +++ n).
  Hypothesis ok_part : forall m p, ok m -> In p (split_char "." m) -> ok p.
  Hypothesis ex_name : forall m, ok m -> is_excluded (w_exclusions_set x (w_backports b c)) m = is_excluded c m.
  Hypothesis ex_kwarg : forall m k, ok m -> is_excluded_kwarg (w_exclusions_set x (w_backports b c)) m k = is_excluded_kwarg c m k.
  Hypothesis ex_ceh : forall t, is_excluded_ceh (w_exclusions_set x (w_backports b c)) t = is_excluded_ceh c t.
  Hypothesis ex_ce : forall t, is_excluded_ce (w_exclusions_set x (w_backports b c)) t = is_excluded_ce c t.

  Record P (s : st) : Prop := {
    p_modules : forall m, In m (s_modules s) -> ok m;
    p_members : forall m, In m (s_members s) -> ok m;
    p_kwargs : forall k, In k (s_kwargs s) -> ok (fst k);
    p_fns : forall m, In m (s_fns s) -> ok m;
    p_imm : forall n m, assoc n (s_import_mem_mod s) = Some m -> ok m;
    p_res : forall n m, assoc n (s_name_res s) = Some m -> ok m;
    p_man : forall n m, assoc n (s_module_as_name s) = Some m -> ok m
  }.
  Lemma P_frame s s' : P s -> s_modules s' = s_modules s -> s_members s' = s_members s -> s_kwargs s' = s_kwargs s ->
    s_fns s' = s_fns s -> s_import_mem_mod s' = s_import_mem_mod s -> s_name_res s' = s_name_res s ->
    s_module_as_name s' = s_module_as_name s -> P s'.
  Proof. intros [A B C D E F G] a1 a2 a3 a4 a5 a6 a7. constructor; rewrite ?a1, ?a2, ?a3, ?a4, ?a5, ?a6, ?a7; assumption. Qed.
  Lemma P_init : P init_st.
  Proof. constructor; cbn; try contradiction; discriminate. Qed.

  Definition ag (a a' : act) : Prop := forall s, P s -> a' s = a s /\ forall s', a s = Ok s' -> P s'.

  Lemma ag_seq a a' d d' : ag a a' -> ag d d' -> ag (a >> d) (a' >> d').
  Proof.
    intros A B s H. destruct (A s H) as [E K]. unfold seq. rewrite E. destruct (a s) as [s1|y]; [|split; [reflexivity|discriminate]].
    apply B, K. reflexivity.
  Qed.
  Lemma ag_nop : ag nop nop.
  Proof. intros s H. split; [reflexivity|]. intros s' E. injection E as <-. exact H. Qed.
  Lemma ag_fail y : ag (fail y) (fail y).
  Proof. intros s H. split; [reflexivity|discriminate]. Qed.
  Lemma ag_upd f : (forall s, P s -> P (f s)) -> ag (upd f) (upd f).
  Proof. intros F s H. split; [reflexivity|]. intros s' E. injection E as <-. apply F, H. Qed.
  Lemma ag_when d a a' : (d = true -> ag a a') -> ag (when d a) (when d a').
  Proof. destruct d; [auto|]. intros _. apply ag_nop. Qed.
  Lemma ag_rd f f' : (forall s, P s -> ag (f s) (f' s)) -> ag (rd f) (rd f').
  Proof. intros F s H. exact (F s H s H). Qed.
  Lemma ag_with_res {A} (m : res A) f f' : (forall a, m = Ok a -> ag (f a) (f' a)) -> ag (with_res m f) (with_res m f').
  Proof. intros F. destruct m; [apply F; reflexivity|apply ag_fail]. Qed.
  Lemma ag_each {A} (f f' : A -> act) l : (forall y, In y l -> ag (f y) (f' y)) -> ag (each f l) (each f' l).
  Proof.
    intros F. induction l as [|y l IH]; [apply ag_nop|]. cbn [each]. apply ag_seq; [apply F; left; reflexivity|].
    apply IH. intros z I. apply F. right. exact I.
  Qed.
  Lemma ag_each2 {A} (f : A -> act) l l' : Forall2 (fun y z => ag (f y) (f z)) l l' -> ag (each f l) (each f l').
  Proof. intros F. induction F; [apply ag_nop|]. cbn [each]. apply ag_seq; assumption. Qed.
  Lemma ag_scoped a a' : ag a a' -> ag (scoped a) (scoped a').
  Proof.
    intros A s H. destruct (A s H) as [E K]. unfold scoped. rewrite E. split; [reflexivity|].
    destruct (a s) as [s1|y]; [|discriminate]. intros s' Es. injection Es as <-.
    apply (P_frame s1); [apply K|..]; reflexivity.
  Qed.
  Lemma ag_no_line l a a' : ag a a' -> ag (unless_no_line e l a) (unless_no_line e' l a').
  Proof.
    intros A. unfold unless_no_line. change (is_no_line e' l) with (is_no_line e l).
    destruct (is_no_line e l); [apply ag_nop|exact A].
  Qed.
  Lemma ag_print lv m en li ve pl : ag (verbose_print_v e lv m en li ve pl) (verbose_print_v e' lv m en li ve pl).
  Proof.
    intros s H. split; [reflexivity|]. intros s' E. unfold verbose_print_v in E.
    destruct (violates e ve) as [[|]|]; [|injection E as <-; exact H|discriminate].
    destruct (_ || _); [injection E as <-; exact H|].
    destruct (match match en with Some _ => _ | None => _ end with Some _ => _ | None => _ end) as [l0 c0].
    injection E as <-. apply (P_frame s); [exact H|..]; reflexivity.
  Qed.
  Lemma ag_flag f : ag (set_flag f) (set_flag f).
  Proof. apply ag_upd. intros s H. destruct (existsb _ _); [exact H|]. apply (P_frame s); [exact H|..]; reflexivity. Qed.
  Lemma ag_user_def n : ag (add_user_def n) (add_user_def n).
  Proof. apply ag_upd. intros s H. apply (P_frame s); [exact H|..]; reflexivity. Qed.
  Lemma ag_lc n l k : ag (add_lc n l k) (add_lc n l k).
  Proof. apply ag_upd. intros s H. apply (P_frame s); [exact H|..]; reflexivity. Qed.
  Lemma ag_if (d : bool) a a' f f' : (d = true -> ag a a') -> (d = false -> ag f f') -> ag (if d then a else f) (if d then a' else f').
  Proof. destruct d; auto. Qed.

  Ltac frame := apply ag_upd; let s := fresh in let H := fresh in intros s H; apply (P_frame s); [exact H|reflexivity..].
  Ltac a1 :=
    lazymatch goal with
    | |- ag nop _ => apply ag_nop
    | |- ag (fail _) _ => apply ag_fail
    | |- ag (_ >> _) _ => apply ag_seq
    | |- ag (when ?d _) (when ?d' _) => change d' with d; apply ag_when; intros ?C
    | |- ag (rd _) _ => apply ag_rd; intros ?s ?Ps
    | |- ag (scoped _) _ => apply ag_scoped
    | |- ag (with_res ?m _) (with_res ?m' _) => change m' with m; apply ag_with_res; intros ?r ?Er
    | |- ag (unless_no_line _ _ _) _ => apply ag_no_line
    | |- ag (each _ _) _ => apply ag_each; intros ?y ?I
    | |- ag (set_flag _) _ => apply ag_flag
    | |- ag (add_user_def _) _ => apply ag_user_def
    | |- ag (add_lc _ _ _) _ => apply ag_lc
    | |- ag (verbose_print_v _ _ _ _ _ _ _) _ => apply ag_print
    | |- ag (vv _ _ _) _ => apply ag_print
    | |- ag (vv_pl _ _ _ _) _ => apply ag_print
    | |- ag (vvl _ _ _ _) _ => apply ag_print
    | |- ag (vvl_pl _ _ _ _) _ => apply ag_print
    | |- ag (vv_msg _ _) _ => apply ag_print
    | |- ag (vvl_msg _ _ _) _ => apply ag_print
    | |- ag (vvv _ _ _) _ => apply ag_print
    | |- ag (vvvv _ _) _ => apply ag_print
    | |- ag (upd _) _ => frame
    | |- ag (let '(_, _) := ?y in _) _ => destruct y
    | |- ag (if ?d then _ else _) (if ?d' then _ else _) => change d' with d; destruct d eqn:?
    | |- ag (match ?d with _ => _ end) (match ?d' with _ => _ end) => change d' with d; destruct d eqn:?
    end.
  Ltac aa := repeat a1.

  (** *** Names *)

  (** What a value says is fine. *)
  Definition fine (v : pyval) : Prop := forall n f t, below n v -> f <> "value" -> attr f n = VStr t -> ok t.
  Lemma ok_empty : ok "".
  Proof. apply ok_types. cbn. tauto. Qed.
  Lemma fine_fld k u p fs f : fine (VNode k u p fs) -> fine (fld f fs).
  Proof.
    intros F n g t B. apply F. unfold fld in B. destruct (assoc f fs) as [y|] eqn:A; [|inversion B; discriminate].
    apply (below_field _ _ _ _ _ f y); [|exact B]. clear -A.
    induction fs as [|[g z] r IH]; [discriminate|]. cbn [assoc] in A. destruct (String.eqb f g) eqn:E.
    - injection A as <-. apply String.eqb_eq in E as ->. left. reflexivity.
    - right. apply IH, A.
  Qed.
  Lemma fine_none : fine VNone.
  Proof. intros n g t B. inversion B; subst; discriminate. Qed.
  Lemma fine_attr f v : fine v -> fine (attr f v).
  Proof.
    unfold attr. destruct v; intros F; try exact fine_none. eapply fine_fld, F.
  Qed.
  Lemma fine_item v a : fine v -> In a (as_list v) -> fine a.
  Proof. destruct v; try contradiction. intros F I n f t B. apply F. exact (below_item _ _ _ I B). Qed.
  Lemma fine_walk v a : fine v -> In a (walk v) -> fine a.
  Proof.
    intros F I n f t B. apply F. apply walk_below in I. clear -I B. induction I; [exact B| |].
    - exact (below_field _ _ _ _ _ _ _ H IHI).
    - exact (below_item _ _ _ H IHI).
  Qed.
  Lemma fine_ostr f v t : f <> "value" -> fine v -> attr f v = VStr t -> ok t.
  Proof.
    intros N F E. destruct v; try discriminate E. refine (F _ f t _ N E). apply below_here. reflexivity.
  Qed.
  Lemma fine_str f v : f <> "value" -> fine v -> ok (as_str (attr f v)).
  Proof.
    intros N F. destruct (attr f v) eqn:E; try exact ok_empty. exact (fine_ostr f v _ N F E).
  Qed.
  Lemma fine_fstr k u p fs f : f <> "value" -> fine (VNode k u p fs) -> ok (fstr f fs).
  Proof. intros N F. exact (fine_str f _ N F). Qed.
  Lemma fine_name v i : fine v -> name_id v = Some i -> ok i.
  Proof.
    destruct v as [| | | | | | | | |k u p fs]; try discriminate. destruct k; try discriminate. intros F E. injection E as <-.
    eapply fine_fstr; [discriminate|exact F].
  Qed.

  Definition all_ok (l : list (option string)) : Prop := forall t, In (Some t) l -> ok t.
  Lemma all_nil : all_ok [].
  Proof. intros t []. Qed.
  Lemma all_cons a l : ok a -> all_ok l -> all_ok (Some a :: l).
  Proof. intros A L t [E|I]; [injection E as <-; exact A|apply L, I]. Qed.
  Lemma all_app l m : all_ok l -> all_ok m -> all_ok (l ++ m).
  Proof. intros L M t I. apply in_app_or in I as [I|I]; auto. Qed.
  Lemma all_some l : (forall t, In t l -> ok t) -> all_ok (map Some l).
  Proof. intros L t I. apply in_map_iff in I as (y & E & I). injection E as ->. apply L, I. Qed.
  Lemma dotted_ok l : all_ok l -> ok (dotted l).
  Proof.
    unfold dotted. intros L. assert (M : forall t, In t (somes l) -> ok t).
    { intros t I. apply L. clear -I. induction l as [|[a|] l IH]; cbn in *; [contradiction| |right; auto].
      destruct I as [->|I]; [left; reflexivity|right; auto]. }
    induction (somes l) as [|a [|d r] IH]; [exact ok_empty|apply M; left; reflexivity|].
    change (join "." (a :: d :: r)) with (a +++ "." +++ join "." (d :: r)). apply ok_dot; [apply M; left; reflexivity|].
    apply IH. intros t I. apply M. right. exact I.
  Qed.

  Lemma gan_coll_ok n l : ok n -> all_ok l -> all_ok (gan_coll n l).
  Proof. intros N L. unfold gan_coll. destruct (_ || _); [|exact L]. apply all_app; [exact L|]. apply all_cons; [exact N|apply all_nil]. Qed.
  Lemma gan_lit_ok n l : ok n -> all_ok l -> all_ok (gan_lit n l).
  Proof. intros N L. unfold gan_lit. destruct (_ || _); [|exact L]. apply all_app; [exact L|]. apply all_cons; [exact N|apply all_nil]. Qed.
  Lemma gan_num_ok n l l' : (forall t, n = Some t -> ok t) -> all_ok l -> gan_num n l = Ok l' -> all_ok l'.
  Proof.
    intros N L E. unfold gan_num in E. assert (S : all_ok [n]).
    { intros t [->|[]]. apply N. reflexivity. }
    destruct l as [|a l].
    - destruct n; [|discriminate]. injection E as <-. exact S.
    - injection E as <-. destruct (_ && _); [exact (all_app (a :: l) [n] L S)|exact L].
  Qed.

  Section Man.
    Variable man : list (string * string).
    Hypothesis Man : forall n m, assoc n man = Some m -> ok m.
    Lemma resolve_ok i : ok i -> ok (resolve_module_name man i).
    Proof. unfold resolve_module_name. destruct (assoc i man) eqn:A; [intros _; exact (Man _ _ A)|auto]. Qed.
    Lemma gan_step_ok acc n acc' : fine n -> all_ok (fst acc) -> gan_step man acc n = Ok acc' -> all_ok (fst acc').
    Proof.
      intros F A E. unfold gan_step in E. destruct n as [| | | | | | | | |k u p fs]; try (injection E as <-; exact A).
      destruct k; try (injection E as <-; exact A).
      all: try (injection E as <-; cbn [fst]; destruct (_ || _); [exact A|apply gan_coll_ok; [apply ok_types; cbn; tauto|exact A]]).
      - injection E as <-. cbn [fst].
        assert (B : all_ok (fst acc ++ [Some (fstr "attr" fs)])).
        { apply all_app; [exact A|]. apply all_cons; [eapply fine_fstr; [discriminate|exact F]|apply all_nil]. }
        destruct (name_id (fld "value" fs)) eqn:N; [|exact B]. apply all_app; [exact B|]. apply all_cons; [|apply all_nil].
        apply resolve_ok, (fine_name _ _ (fine_fld _ _ _ _ _ F) N).
      - injection E as <-. cbn [fst]. destruct (name_id (fld "func" fs)) eqn:N; [|exact A]. apply all_app; [exact A|].
        apply all_cons; [exact (fine_name _ _ (fine_fld _ _ _ _ _ F) N)|apply all_nil].
      - destruct (_ || _); [injection E as <-; exact A|].
        destruct (fld "value" fs); try (injection E as <-; cbn [fst]; first [exact A | apply gan_lit_ok; [apply ok_types; cbn; tauto|exact A]]).
        all: match type of E with mapr _ ?g = _ => destruct g as [l|] eqn:G; [|discriminate] end; injection E as <-; cbn [fst];
          (eapply gan_num_ok; [|exact A|exact G]); intros t Et; try discriminate Et; injection Et as <-; apply ok_types; cbn; tauto.
    Qed.
    Lemma gan_loop_ok l : forall acc acc', (forall n, In n l -> fine n) -> all_ok (fst acc) -> gan_loop man l acc = Ok acc' -> all_ok (fst acc').
    Proof.
      induction l as [|n l IH]; intros acc acc' F A E; cbn [gan_loop] in E; [injection E as <-; exact A|].
      destruct (gan_step man acc n) as [a|] eqn:S; [|discriminate]. cbn [bindr] in E.
      apply (IH a); [intros m I; apply F; right; exact I| |exact E].
      apply (gan_step_ok acc n); [apply F; left; reflexivity|exact A|exact S].
    Qed.
    Lemma attribute_ok v full : fine v -> get_attribute_name man v = Ok full -> all_ok full.
    Proof.
      intros F E. unfold get_attribute_name in E. destruct (gan_loop man (walk v) ([], false)) as [a|] eqn:G; [|discriminate].
      injection E as <-. intros t I. apply in_rev in I. revert t I. exact (gan_loop_ok _ ([], false) a (fun n I => fine_walk v n F I) all_nil G).
    Qed.
    Lemma dotted_attr_ok v d : fine v -> dotted_attr man v = Ok d -> ok d.
    Proof.
      intros F E. unfold dotted_attr in E. destruct (get_attribute_name man v) as [full|] eqn:G; [|discriminate].
      injection E as <-. apply dotted_ok, (attribute_ok v _ F G).
    Qed.
    Lemma assigned_ok v n t : fine v -> assigned_name man v = Ok (Some n, t) -> ok n.
    Proof.
      intros F E. destruct v as [| | | | | | | | |k u p fs]; try discriminate E. destruct k; try discriminate E; unfold assigned_name in E.
      all: try (injection E as <- <-; apply ok_types; cbn; tauto).
      - destruct (dotted_attr man _) as [d|] eqn:D; [|discriminate]. injection E as <- <-. exact (dotted_attr_ok _ _ F D).
      - destruct (name_id (fld "func" fs)) eqn:N; [injection E as <- <-; exact (fine_name _ _ (fine_fld _ _ _ _ _ F) N)|].
        destruct (is_kind KAttribute (fld "func" fs)); [|discriminate].
        destruct (dotted_attr man _) as [d|] eqn:D; [|discriminate]. injection E as <- <-.
        exact (dotted_attr_ok _ _ (fine_fld _ _ _ _ _ F) D).
      - destruct (fld "value" fs); try discriminate; injection E as <- <-; apply ok_types; cbn; tauto.
    Qed.
  End Man.
  Lemma operand_ok s v n : P s -> fine v -> operand_name s v = Ok (Some n) -> ok n.
  Proof.
    intros H F E. destruct v as [| | | | | | | | |k u p fs]; try discriminate E. destruct k; try discriminate E; unfold operand_name in E.
    - destruct (dotted_attr _ _) as [d|] eqn:D; [|discriminate]. injection E as <-. exact (dotted_attr_ok _ (p_man s H) _ _ F D).
    - injection E as <-. eapply fine_fstr; [discriminate|exact F].
  Qed.
  Lemma deco_ok s n : P s -> ok n -> ok (deco_full_name s n).
  Proof.
    intros H N. unfold deco_full_name. destruct (assoc n (s_import_mem_mod s)) eqn:A.
    - apply dotted_ok, all_cons; [exact (p_imm s H _ _ A)|]. apply all_cons; [exact N|apply all_nil].
    - destruct (assoc n (s_module_as_name s)) eqn:B; [exact (p_man s H _ _ B)|exact N].
  Qed.
  Lemma kw_function_ok s f : P s -> ok f -> ok (kw_function s f).
  Proof.
    intros H N. unfold kw_function. destruct (assoc f (s_import_mem_mod s)) eqn:A.
    - apply dotted_ok, all_cons; [exact (p_imm s H _ _ A)|]. apply all_cons; [exact N|apply all_nil].
    - destruct (split_char "." f) as [|p0 ps] eqn:S; [exact N|].
      assert (Q : forall t, In t (p0 :: ps) -> ok t) by (intros t I; apply (ok_part f); [exact N|rewrite S; exact I]).
      assert (T : all_ok (map Some ps)) by (apply all_some; intros t I; apply Q; right; exact I).
      destruct (assoc p0 (s_import_mem_mod s)) eqn:B.
      + apply dotted_ok, all_cons; [exact (p_imm s H _ _ B)|]. apply all_cons; [exact N|apply all_nil].
      + destruct (assoc p0 (s_name_res s)) as [r|] eqn:C; [|exact N]. pose proof (p_res s H _ _ C) as R.
        destruct (assoc r (s_import_mem_mod s)) eqn:D; apply dotted_ok.
        * apply all_cons; [exact (p_imm s H _ _ D)|]. apply all_cons; assumption.
        * apply all_cons; assumption.
  Qed.

  (** *** What is recorded *)
  Lemma ag_add_module m l k : ok m -> ag (add_module e m l k) (add_module e' m l k).
  Proof.
    intros M. unfold add_module. a1. change (e_cfg e) with c. change (e_cfg e') with (w_exclusions_set x (w_backports b c)).
    rewrite ex_name by exact M. aa. apply ag_upd. intros t [A B C D E F G]. constructor; cbn; try assumption.
    intros n I. apply in_app_or in I as [I|[<-|[]]]; auto.
  Qed.
  Lemma ag_add_member m l k : ok m -> ag (add_member e m l k) (add_member e' m l k).
  Proof.
    intros M. unfold add_member. a1. change (e_cfg e) with c. change (e_cfg e') with (w_exclusions_set x (w_backports b c)).
    rewrite ex_name by exact M. aa. apply ag_upd. intros t [A B C D E F G]. constructor; cbn; try assumption.
    intros n I. apply in_app_or in I as [I|[<-|[]]]; auto.
  Qed.
  Lemma ag_add_kwargs m k l : ok m -> ag (add_kwargs e m k l) (add_kwargs e' m k l).
  Proof.
    intros M. unfold add_kwargs. a1. change (e_cfg e) with c. change (e_cfg e') with (w_exclusions_set x (w_backports b c)).
    rewrite ex_kwarg by exact M. aa. apply ag_upd. intros t [A B C D E F G]. constructor; cbn; try assumption.
    intros n I. apply in_app_or in I as [I|[<-|[]]]; auto.
  Qed.
  Lemma ag_deco m l : ok m -> ag (add_user_func_deco e m l) (add_user_func_deco e' m l).
  Proof.
    intros M. unfold add_user_func_deco. a1. change (e_cfg e) with c. change (e_cfg e') with (w_exclusions_set x (w_backports b c)).
    rewrite ex_name by exact M. aa.
  Qed.
  Lemma ag_ceh v l : ag (add_ceh e v l) (add_ceh e' v l).
  Proof.
    unfold add_ceh, add_lc_val. change (e_cfg e) with c. change (e_cfg e') with (w_exclusions_set x (w_backports b c)). rewrite ex_ceh. aa.
  Qed.
  Lemma ag_cenc v l : ag (add_cenc e v l) (add_cenc e' v l).
  Proof.
    unfold add_cenc, add_lc_val. change (e_cfg e) with c. change (e_cfg e') with (w_exclusions_set x (w_backports b c)). rewrite ex_ce. aa.
  Qed.
  Lemma ag_codecs f a w l : ag (check_codecs_function e f a w l) (check_codecs_function e' f a w l).
  Proof.
    unfold check_codecs_function, add_codecs_error_handler, add_codecs_encoding, when_const. aa; try apply ag_ceh; try apply ag_cenc.
    change (e_cfg e) with c. change (e_cfg e') with (w_exclusions_set x (w_backports b c)). rewrite ex_ce. aa. apply ag_cenc.
  Qed.
  Lemma ag_typecodes a l k : ag (add_typecodes a l k) (add_typecodes a l k).
  Proof. unfold add_typecodes, add_array_typecode. aa. Qed.
  Lemma ag_user_def_node w : ag (add_user_def_node w) (add_user_def_node w).
  Proof. unfold add_user_def_node. aa. Qed.
  Lemma ag_target_defs w : ag (add_target_defs w) (add_target_defs w).
  Proof. unfold add_target_defs. aa. apply ag_user_def_node. Qed.
  Lemma ag_name_res n m : ok m -> ag (add_name_res n m) (add_name_res n m).
  Proof.
    intros M. apply ag_upd. intros t [A B C D E F G]. constructor; cbn; try assumption.
    intros k y. rewrite assoc_dict_set. destruct (String.eqb k n); [intros Ey; injection Ey as <-; exact M|apply F].
  Qed.
  Lemma ag_man n m : ok m -> ag (upd (fun s => u_module_as_name (dict_set n m (s_module_as_name s)) s)) (upd (fun s => u_module_as_name (dict_set n m (s_module_as_name s)) s)).
  Proof.
    intros M. apply ag_upd. intros t [A B C D E F G]. constructor; cbn; try assumption.
    intros k y. rewrite assoc_dict_set. destruct (String.eqb k n); [intros Ey; injection Ey as <-; exact M|apply G].
  Qed.
  Lemma ag_imm n m : ok m -> ag (upd (fun s => u_import_mem_mod (dict_set n m (s_import_mem_mod s)) s)) (upd (fun s => u_import_mem_mod (dict_set n m (s_import_mem_mod s)) s)).
  Proof.
    intros M. apply ag_upd. intros t [A B C D E F G]. constructor; cbn; try assumption.
    intros k y. rewrite assoc_dict_set. destruct (String.eqb k n); [intros Ey; injection Ey as <-; exact M|apply E].
  Qed.
  Lemma ag_push n : ok n -> ag (push_fn n) (push_fn n).
  Proof.
    intros M. apply ag_upd. intros t [A B C D E F G]. constructor; cbn; try assumption.
    intros k I. apply in_app_or in I as [I|[<-|[]]]; auto.
  Qed.
  Lemma ag_pop : ag pop_fn pop_fn.
  Proof.
    apply ag_upd. intros t [A B C D E F G]. constructor; cbn; try assumption.
    intros k I. apply D. clear -I. induction (s_fns t) as [|a [|d r] IH]; [exact I|destruct I|].
    destruct I as [->|I]; [left; reflexivity|right; apply IH, I].
  Qed.
  Lemma ag_assign t w : fine w -> ag (add_name_res_assign t w) (add_name_res_assign t w).
  Proof.
    intros F. unfold add_name_res_assign, add_name_res_type. aa. apply ag_name_res. subst.
    exact (assigned_ok _ (p_man _ Ps) _ _ _ F Er).
  Qed.
  Lemma ag_names w : fine w -> ag (add_names_as_members e w) (add_names_as_members e' w).
  Proof. intros F. unfold add_names_as_members. aa. apply ag_add_member. eapply fine_name; [|eassumption]. eapply fine_walk; eassumption. Qed.

  (** *** The handlers *)
  Section Node.
    Variables (k : kind) (u : N) (pos : option (Z * Z)) (fs : list (string * pyval)) (ks ks' : list (string * ksem)).
    Notation v := (VNode k u pos fs).
    Hypothesis F : fine v.
    Hypothesis Kids : Forall2 (fun y z => fst y = fst z /\ ag (visit_field (snd y)) (visit_field (snd z))) ks ks'.
    Hypothesis Body : forall f, Forall2 (fun y z => ag (k_visit y) (k_visit z) /\ ag (k_gvisit y) (k_gvisit z)) (k_list (kid f ks)) (k_list (kid f ks')).

    Lemma ag_fields l l' : Forall2 (fun y z => fst y = fst z /\ ag (visit_field (snd y)) (visit_field (snd z))) l l' -> ag (visit_fields l) (visit_fields l').
    Proof. intros H. apply ag_each2. induction H as [|y z l l' [_ A]]; constructor; assumption. Qed.
    Lemma ag_generic w : ag (generic_visit e w ks) (generic_visit e' w ks').
    Proof. unfold generic_visit. aa. apply ag_fields, Kids. Qed.
    Lemma ag_generic_drop w : ag (generic_visit e w (drop_returns ks)) (generic_visit e' w (drop_returns ks')).
    Proof.
      unfold generic_visit. aa. apply ag_fields. unfold drop_returns. assert (Q := Kids). clear -Q. induction Q as [|y z l l' [E A]]; cbn [map]; [constructor|]. constructor; [|assumption].
      rewrite <- E. destruct (String.eqb (fst y) "returns"); [split; [reflexivity|apply ag_nop]|split; assumption].
    Qed.
    Lemma ag_body f : ag (each k_visit (k_list (kid f ks))) (each k_visit (k_list (kid f ks'))).
    Proof. apply ag_each2. induction (Body f) as [|y z l l' [A _]]; constructor; assumption. Qed.
    Lemma ag_gbody f : ag (each k_gvisit (k_list (kid f ks))) (each k_gvisit (k_list (kid f ks'))).
    Proof. apply ag_each2. induction (Body f) as [|y z l l' [_ A]]; constructor; assumption. Qed.

    Lemma F_fld f : fine (fld f fs).
    Proof. exact (fine_fld _ _ _ _ f F). Qed.
    Lemma F_item f y : In y (flist f fs) -> fine y.
    Proof. intros I. exact (fine_item _ _ (F_fld f) I). Qed.

    Lemma ag_annotations l args : ag (arg_annotations e l args) (arg_annotations e' l args).
    Proof.
      induction args as [|a args IH]; cbn [arg_annotations]; [apply ag_nop|]. aa; exact IH.
    Qed.
    Lemma ag_relaxed l : ag (check_relaxed_decorators e l) (check_relaxed_decorators e' l).
    Proof. unfold check_relaxed_decorators. aa. Qed.
    Lemma ag_functiondef w : ag (handle_functiondef e w fs ks) (handle_functiondef e' w fs ks').
    Proof.
      unfold handle_functiondef, check_user_func_decorators.
      aa; try apply ag_relaxed; try apply ag_generic; try apply ag_generic_drop; try apply ag_annotations.
      apply ag_deco. apply deco_ok; [assumption|]. subst. eapply operand_ok; [eassumption| |eassumption]. eapply F_item; eassumption.
    Qed.
    Lemma ag_call w : ag (visit_call e w pos fs ks) (visit_call e' w pos fs ks').
    Proof.
      unfold visit_call, check_gen_unp_call, gen_unpacking. a1. apply ag_seq; [|apply ag_seq; [aa|apply ag_seq; [apply ag_generic|apply ag_pop]]].
      pose proof (F_fld "func") as G. destruct (fld "func" fs) as [| | | | | | | | |fk fu fp ffs]; try apply ag_nop.
      destruct fk; try apply ag_nop.
      - unfold call_attribute, strftime_arg, add_strftime_directive, when_const. aa; try apply ag_codecs; try apply ag_typecodes.
        apply ag_push. exact (dotted_attr_ok _ (p_man _ Ps) _ _ G Er).
      - assert (O : ok (fstr "id" ffs)) by (eapply fine_fstr; [discriminate|exact G]).
        unfold call_name. apply ag_seq; [apply ag_push, O|]. apply ag_seq; [apply ag_add_member, O|].
        aa; try apply ag_codecs; try apply ag_typecodes.
    Qed.
    Lemma ag_attr_module full l m : all_ok full -> ag (attr_module e full l m) (attr_module e' full l m).
    Proof.
      intros A. unfold attr_module. aa; [apply ag_add_module, dotted_ok, A|]. apply ag_add_member, dotted_ok, all_cons; [|exact A].
      eapply p_imm; eassumption.
    Qed.
    Lemma ag_attr_resolve full l : all_ok full -> ag (attr_resolve e full l) (attr_resolve e' full l).
    Proof.
      intros A. unfold attr_resolve. a1. destruct full as [|[h|] tl]; try apply ag_nop.
      assert (T : all_ok tl) by (intros t I; apply A; right; exact I).
      destruct (assoc h (s_name_res s)) as [r|] eqn:R; [|apply ag_nop]. pose proof (p_res _ Ps _ _ R) as O.
      apply ag_seq.
      - aa; apply ag_add_member, dotted_ok; repeat apply all_cons; try assumption. eapply p_imm; eassumption.
      - a1. destruct (split_char "." r) as [|p0 ps] eqn:S; [apply ag_nop|]. aa. apply ag_add_member, dotted_ok, all_cons.
        + eapply p_res; eassumption.
        + apply all_app; [|exact T]. apply all_some. intros t I. apply (ok_part r); [exact O|]. rewrite S. right. exact I.
    Qed.
    Lemma ag_attribute : ag (visit_attribute e v ks) (visit_attribute e' v ks').
    Proof.
      unfold visit_attribute. apply ag_seq; [|apply ag_generic]. a1. a1. a1.
      pose proof (attribute_ok _ (p_man _ Ps) _ _ F Er) as A.
      aa; try (apply ag_attr_module, A); [apply ag_add_member, dotted_ok, A|apply ag_attr_resolve, A].
    Qed.
    Lemma ag_keyword w : ag (visit_keyword e w fs ks) (visit_keyword e' w fs ks').
    Proof.
      unfold visit_keyword. a1. apply ag_seq.
      - aa. apply ag_add_kwargs, kw_function_ok; [assumption|]. eapply p_fns; eassumption.
      - assert (E : existsb (fun func => kw_accepted e' s (kw_function s func) (as_ostr (fld "arg" fs))) (s_fns s) =
                    existsb (fun func => kw_accepted e s (kw_function s func) (as_ostr (fld "arg" fs))) (s_fns s)).
        { assert (Q : forall f, In f (s_fns s) -> ok f) by apply (p_fns _ Ps). induction (s_fns s) as [|f l IH]; [reflexivity|]. cbn [existsb].
          rewrite IH by (intros g I; apply Q; right; exact I). f_equal. unfold kw_accepted. do 2 f_equal. apply ex_kwarg, kw_function_ok; [exact Ps|].
          apply Q. left. reflexivity. }
        rewrite E. apply ag_when. intros _. apply ag_generic.
    Qed.
    Lemma ag_import : ag (visit_import e pos fs) (visit_import e' pos fs).
    Proof.
      unfold visit_import. a1. a1. assert (O : ok (as_str (attr "name" y))) by (apply fine_str; [discriminate|eapply F_item; exact I]).
      apply ag_seq; [apply ag_add_module, O|]. apply ag_seq; [apply ag_add_member, O|].
      destruct (as_ostr (attr "asname" y)); [|apply ag_nop]. apply ag_seq; [apply ag_man, O|apply ag_user_def].
    Qed.
    Lemma ag_import_from : ag (visit_import_from e pos fs) (visit_import_from e' pos fs).
    Proof.
      unfold visit_import_from. destruct (fld "module" fs) as [| | | | |module| | | |] eqn:M; try apply ag_nop.
      assert (O : ok module) by (refine (fine_ostr "module" v _ _ F M); discriminate).
      destruct (match fld "level" fs with VInt _ => _ | _ => _ end); [apply ag_nop|]. a1. apply ag_seq; [apply ag_add_module, O|].
      a1. assert (N : ok (as_str (attr "name" y))) by (apply fine_str; [discriminate|eapply F_item; exact I]).
      assert (MN : ok (module +++ "." +++ as_str (attr "name" y))) by (apply ok_dot; assumption).
      apply ag_seq.
      - destruct (String.eqb _ "*"); [apply ag_nop|]. apply ag_seq; [apply ag_imm, O|]. apply ag_seq; [apply ag_add_module, MN|].
        apply ag_seq; apply ag_add_member; assumption.
      - destruct (as_ostr (attr "asname" y)); [|apply ag_nop]. apply ag_seq; [apply ag_man, MN|apply ag_user_def].
    Qed.
    Lemma ag_name : ag (visit_name e fs) (visit_name e' fs).
    Proof.
      unfold visit_name. destruct (String.eqb _ "long") eqn:L; [|aa]. apply String.eqb_eq in L.
      assert (O : ok "long") by (rewrite <- L; eapply fine_fstr; [discriminate|exact F]).
      a1. change (e_cfg e) with c. change (e_cfg e') with (w_exclusions_set x (w_backports b c)).
      rewrite ex_name by exact O. aa.
    Qed.

    Lemma ag_handler : ag (handler e k u pos fs ks) (handler e' k u pos fs ks').
    Proof.
      pose proof ag_attribute as Att. pose proof (ag_call v) as Call. pose proof (ag_keyword v) as Kw. pose proof F_fld as Fl.
      pose proof (ag_functiondef v) as Fd. pose proof ag_import as Im. pose proof ag_name as Na. pose proof ag_import_from as If_.
      assert (As : forall l f, ag (add_name_res_assign l (fld f fs)) (add_name_res_assign l (fld f fs))) by (intros; apply ag_assign, F_fld).
      assert (Nm : forall f, ag (add_names_as_members e (fld f fs)) (add_names_as_members e' (fld f fs))) by (intros; apply ag_names, F_fld).
      destruct k; cbn [handler];
        first [apply ag_nop | apply ag_generic | exact Att | exact Call | exact Kw | exact Im | exact If_ | exact Na | idtac].
      all: unfold gen_unpacking, check_gen_unp_seq, check_gen_unp_dict, visit_binop, visit_constant, visit_ellipsis, visit_joinedstr,
        add_bytes_directive, visit_assign, visit_augassign, visit_annassign, visit_functiondef, visit_asyncfunctiondef, visit_await,
        visit_classdef, visit_namedexpr, visit_arguments, visit_nonlocal, visit_yieldfrom, visit_match, visit_typealias, visit_yield,
        visit_raise, visit_excepthandler, visit_setcomp, visit_dictcomp, comp_scope, visit_comprehension, visit_matmult, visit_continue,
        visit_with, visit_asyncwith, handle_with, visit_dict, visit_set, visit_seq, check_gen_unp_seq, check_gen_unp_dict, gen_unpacking,
        visit_subscript, visit_cond, visit_asyncfor, handle_for, visit_while, visit_try, visit_starred.
      all: unfold add_arg_def, add_name_res_type, check_builtin_generic, generic_match.
      all: repeat first
        [ apply ag_generic | apply ag_body | apply ag_gbody | exact Fd | apply ag_relaxed | apply ag_target_defs | apply ag_user_def_node
        | apply As | apply Nm | apply ag_name_res; apply ok_types; cbn; tauto | a1 ].
    Qed.
  End Node.

  Lemma sem_ag v : fine v ->
    ag (k_visit (sem e v)) (k_visit (sem e' v)) /\ ag (k_gvisit (sem e v)) (k_gvisit (sem e' v)) /\
    ag (visit_field (sem e v)) (visit_field (sem e' v)) /\
    Forall2 (fun y z => ag (k_visit y) (k_visit z) /\ ag (k_gvisit y) (k_gvisit z)) (k_list (sem e v)) (k_list (sem e' v)).
  Proof.
    induction v as [ |d|z|s|s|s|s| |l IH|k u p fs IH] using pyval_rect'; intros F;
      try (split; [apply ag_nop|split; [apply ag_nop|split; [apply ag_nop|constructor]]]; fail).
    - assert (L : Forall2 (fun y z => ag (k_visit y) (k_visit z) /\ ag (k_gvisit y) (k_gvisit z)) (map (sem e) l) (map (sem e') l)).
      { assert (Fi : forall y, In y l -> fine y) by (intros y I; exact (fine_item (VList l) y F I)). clear F.
        induction IH as [|y l H _ IH]; cbn [map]; constructor.
        - destruct (H (Fi y (or_introl eq_refl))) as (A & B & _). split; assumption.
        - apply IH. intros z I. apply Fi. right. exact I. }
      cbn [sem k_visit k_gvisit visit_field k_list]. split; [apply ag_nop|split; [apply ag_nop|split; [|exact L]]].
      apply ag_each2. clear -L. induction L as [|y z ? ? [A _]]; constructor; assumption.
    - rewrite Forall_forall in IH.
      set (ks := map (fun fx => (fst fx, sem e (snd fx))) fs). set (ks' := map (fun fx => (fst fx, sem e' (snd fx))) fs).
      assert (Fi : forall f y, In (f, y) fs -> fine y).
      { intros f y I n g t B. apply F. exact (below_field _ _ _ _ _ _ _ I B). }
      assert (Kids : Forall2 (fun y z => fst y = fst z /\ ag (visit_field (snd y)) (visit_field (snd z))) ks ks').
      { subst ks ks'. assert (H : forall f y, In (f, y) fs -> ag (visit_field (sem e y)) (visit_field (sem e' y))).
        { intros f y I. apply (IH (f, y) I), (Fi f y I). }
        clear -H. induction fs as [|[f y] r IH]; cbn [map]; constructor.
        - split; [reflexivity|]. apply (H f y). left. reflexivity.
        - apply IH. intros g z I. apply (H g z). right. exact I. }
      assert (Body : forall f, Forall2 (fun y z => ag (k_visit y) (k_visit z) /\ ag (k_gvisit y) (k_gvisit z)) (k_list (kid f ks)) (k_list (kid f ks'))).
      { intros f. subst ks ks'.
        assert (H : forall f y, In (f, y) fs -> Forall2 (fun y z => ag (k_visit y) (k_visit z) /\ ag (k_gvisit y) (k_gvisit z)) (k_list (sem e y)) (k_list (sem e' y))).
        { intros g y I. apply (IH (g, y) I), (Fi g y I). }
        clear -H. unfold kid. induction fs as [|[g y] r IH]; cbn [map assoc fst snd]; [constructor|].
        destruct (String.eqb f g); [apply (H g y); left; reflexivity|]. apply IH. intros h z I. apply (H h z). right. exact I. }
      pose proof (ag_handler k u p fs ks ks' F Kids Body) as H.
      split; [exact H|split; [exact (ag_generic ks ks' Kids (VNode k u p fs))|split; [exact H|constructor]]].
  Qed.

  Lemma tour_ag v : fine v -> tour e' v = tour e v /\ forall s, tour e v = Ok s -> P s.
  Proof.
    intros F. assert (A : ag (visit e v >> after_visit_all e) (visit e' v >> after_visit_all e')); [|exact (A init_st P_init)].
    apply ag_seq; [exact (proj1 (sem_ag v F))|]. unfold after_visit_all, drop_user_def. aa.
    - apply ag_upd. intros t [A B C D E G H]. constructor; cbn; try assumption. intros m J. apply filter_In in J. apply A, J.
    - apply ag_upd. intros t [A B C D E G H]. constructor; cbn; try assumption. intros m J. apply filter_In in J. apply B, J.
  Qed.
End Agree.

(** *** Rules *)

Lemma vfilter m n : version_filter m = n -> m = n \/ versioned m n.
Proof.
  unfold version_filter. destruct (span is_word_dot m) as [a b] eqn:S. apply span_parts in S as [-> W].
  destruct (negb (a =? "")%string && startswith "==" b && negb (upto_newline (sdrop 2 b) =? "")%string) eqn:Q; [|auto].
  intros <-. right. apply andb_prop in Q as [Q Q3]. apply andb_prop in Q as [Q1 Q2]. split; [|split].
  - intros ->. discriminate.
  - intros c I. apply is_word_dot_iff, W, I.
  - apply Proof_Strings.startswith_iff in Q2 as ([|c r] & ->); [discriminate|]. exists c, r. split; [reflexivity|]. intros ->. discriminate.
Qed.

Fixpoint req_names (r : reqx) : list string :=
  match r with RConst _ => [] | RBpv n _ => [n] | RIfNot n y z => n :: req_names y ++ req_names z end.
(** A rule asks for backports of the module it is about only. *)
Definition local_rule (key : string) (r : reqx) : bool :=
  forallb (fun n => forallb (fun p => mem p (split_char "." key)) (split_char "." n)) (req_names r).
Lemma rules_local :
  forallb (fun kr => local_rule (fst kr) (snd kr)) mod_reqs_x && forallb (fun kr => local_rule (fst kr) (snd kr)) mod_mem_reqs_x &&
  forallb (fun kr => local_rule (fst (fst kr)) (snd kr)) kwargs_reqs_x = true.
Proof. vm_compute. reflexivity. Qed.
Lemma assoc_In {A} k (l : list (string * A)) y : assoc k l = Some y -> In (k, y) l.
Proof.
  induction l as [|[g z] r IH]; [discriminate|]. cbn [assoc]. destruct (String.eqb k g) eqn:E; [|right; auto].
  intros H. injection H as <-. apply String.eqb_eq in E as ->. left. reflexivity.
Qed.
Lemma assoc2_In {A} k (l : list ((string * string) * A)) y : assoc2 k l = Some y -> In (k, y) l.
Proof.
  induction l as [|[g z] r IH]; [discriminate|]. cbn [assoc2]. destruct (_ && _) eqn:E; [|right; auto].
  intros H. injection H as <-. apply andb_true_iff in E as [E F]. apply String.eqb_eq in E, F. left. destruct k, g; cbn in *; congruence.
Qed.

Section Backports.
  Variables (b b' : list string) (ok : string -> Prop).
  Hypothesis Same : forall n m, ok n -> m = n \/ versioned m n -> (In m b <-> In m b').
  Lemma mem_same n m : ok n -> m = n \/ versioned m n -> mem m b' = mem m b.
  Proof.
    intros O V. pose proof (Same n m O V) as S. destruct (mem m b) eqn:A, (mem m b') eqn:B; try reflexivity.
    - apply mem_In, S, mem_In in A. congruence.
    - apply mem_In, S, mem_In in B. congruence.
  Qed.
  Lemma bpv_same n d : ok n -> bpv n d b' = bpv n d b.
  Proof.
    intros O. unfold bpv. assert (K : forall y, In y (expand_versions n) -> bp (bp_name y) b' = bp (bp_name y) b).
    { intros y I. apply expand_In in I as [_ I]. apply (mem_same n); [exact O|apply vfilter, I]. }
    induction (expand_versions n) as [|y l IH]; [reflexivity|]. cbn [bpv_loop]. rewrite K by (left; reflexivity).
    rewrite IH; [reflexivity|]. intros z I. apply K. right. exact I.
  Qed.
  Lemma req_same r : (forall n, In n (req_names r) -> ok n) -> req_eval b' r = req_eval b r.
  Proof.
    induction r as [m|n d|n y IHy z IHz]; intros H; cbn [req_eval]; [reflexivity|apply bpv_same, H; left; reflexivity|].
    unfold bp. rewrite (mem_same n n) by (try (left; reflexivity); apply H; left; reflexivity).
    rewrite IHy, IHz; [reflexivity|..]; intros q I; apply H; right; apply in_or_app; auto.
  Qed.
  Hypothesis Parts : forall m n, ok m -> (forall p, In p (split_char "." n) -> In p (split_char "." m)) -> ok n.
  Lemma local_ok key r : ok key -> local_rule key r = true -> forall n, In n (req_names r) -> ok n.
  Proof.
    intros O L n I. unfold local_rule in L. rewrite forallb_forall in L. specialize (L n I). rewrite forallb_forall in L.
    apply (Parts key); [exact O|]. intros p J. apply mem_In, L, J.
  Qed.
  Lemma mod_same m : ok m -> mod_req b' m = mod_req b m.
  Proof.
    intros O. unfold mod_req. destruct (assoc m mod_reqs_x) as [r|] eqn:A; [|reflexivity]. cbn [option_map]. f_equal. apply req_same.
    apply (local_ok m); [exact O|]. pose proof rules_local as R. apply andb_true_iff in R as [R _]. apply andb_true_iff in R as [R _].
    rewrite forallb_forall in R. exact (R _ (assoc_In _ _ _ A)).
  Qed.
  Lemma mem_req_same m : ok m -> mem_req b' m = mem_req b m.
  Proof.
    intros O. unfold mem_req. destruct (assoc m mod_mem_reqs_x) as [r|] eqn:A; [|reflexivity]. cbn [option_map]. f_equal. apply req_same.
    apply (local_ok m); [exact O|]. pose proof rules_local as R. apply andb_true_iff in R as [R _]. apply andb_true_iff in R as [_ R].
    rewrite forallb_forall in R. exact (R _ (assoc_In _ _ _ A)).
  Qed.
  Lemma kwarg_same k : ok (fst k) -> kwarg_req b' k = kwarg_req b k.
  Proof.
    intros O. unfold kwarg_req. destruct (assoc2 k kwargs_reqs_x) as [r|] eqn:A; [|reflexivity]. cbn [option_map]. f_equal. apply req_same.
    apply (local_ok (fst k)); [exact O|]. pose proof rules_local as R. apply andb_true_iff in R as [_ R].
    rewrite forallb_forall in R. exact (R _ (assoc2_In _ _ _ A)).
  Qed.
  Lemma unversioned_same m : ok m -> mem m (unversioned_filter b') = mem m (unversioned_filter b).
  Proof.
    intros O. assert (K : In m (unversioned_filter b') <-> In m (unversioned_filter b)).
    { unfold unversioned_filter. rewrite !dedup_In, !in_map_iff. split; intros (y & E & I); exists y; (split; [exact E|]);
        apply (Same m y O (vfilter _ _ E)), I. }
    destruct (mem m (unversioned_filter b)) eqn:A, (mem m (unversioned_filter b')) eqn:B; try reflexivity.
    - apply mem_In, K, mem_In in A. congruence.
    - apply mem_In, K, mem_In in B. congruence.
  Qed.
End Backports.

Lemma rule_steps_same {A} (f f' : A -> option mins) t en l : (forall a, In a l -> f' a = f a) -> rule_steps f' t en l = rule_steps f t en l.
Proof.
  intros H. unfold rule_steps. induction l as [|a l IH]; [reflexivity|]. cbn [flat_map]. rewrite H by (left; reflexivity).
  rewrite IH; [reflexivity|]. intros z I. apply H. right. exact I.
Qed.

(** *** One source *)

Lemma split_dot_app m n : split_char "." (m +++ "." +++ n) = split_char "." m ++ split_char "." n.
Proof.
  unfold split_char. induction m as [|c m IH]; [reflexivity|]. change (String c m +++ "." +++ n) with (String c (m +++ "." +++ n)).
  cbn [split_on]. destruct (Ascii.eqb "." c); [cbn [app]; f_equal; exact IH|]. rewrite IH.
  destruct (split_on (Ascii.eqb ".") m) eqn:E; [|reflexivity].
  exfalso. clear -E. destruct m as [|d m]; [discriminate|]. cbn [split_on] in E. destruct (Ascii.eqb "." d); [discriminate|].
  destruct (split_on (Ascii.eqb ".") m); discriminate.
Qed.
Lemma split_dot_part m p : In p (split_char "." m) -> split_char "." p = [p].
Proof.
  unfold split_char. revert p. induction m as [|c m IH]; intros p I; [destruct I as [<-|[]]; reflexivity|]. cbn [split_on] in I.
  destruct (Ascii.eqb "." c) eqn:D; [destruct I as [<-|I]; [reflexivity|apply IH, I]|].
  destruct (split_on (Ascii.eqb ".") m) as [|h t].
  - destruct I as [<-|[]]. cbn [split_on]. rewrite D. reflexivity.
  - destruct I as [<-|I]; [|apply IH; right; exact I]. cbn [split_on]. rewrite D, (IH h) by (left; reflexivity). reflexivity.
Qed.

Section Named.
  Variables (v : pyval) (c c' : config).
  Hypothesis Rest : same_settings c c'.
  Hypothesis Others : about_others v c c'.
  Notation ok := (made_of v).

  Lemma made_types t : In t literal_types -> ok t.
  Proof.
    intros I p J. left. assert (E : parts t = [t]) by (unfold literal_types in I; cbn [In] in I; repeat destruct I as [<-|I]; try reflexivity; contradiction).
    rewrite E in J. destruct J as [<-|[]]. exact I.
  Qed.
  Lemma made_dot m n : ok m -> ok n -> ok (m +++ "." +++ n).
  Proof. intros M N p I. unfold parts in I. rewrite split_dot_app in I. apply in_app_or in I as [I|I]; auto. Qed.
  Lemma made_part m p : ok m -> In p (split_char "." m) -> ok p.
  Proof. intros M I q J. unfold parts in J. rewrite (split_dot_part m p I) in J. destruct J as [<-|[]]. apply M, I. Qed.
  Lemma made_sub m n : ok m -> (forall p, In p (split_char "." n) -> In p (split_char "." m)) -> ok n.
  Proof. intros M S p I. apply M, S, I. Qed.
  Lemma made_fine : fine ok v.
  Proof. intros n f t B N E p I. right. exists t. split; [|exact I]. exists n, f. auto. Qed.

  Lemma mem_iff m (l l' : list string) : (In m l <-> In m l') -> mem m l' = mem m l.
  Proof.
    intros S. destruct (mem m l) eqn:A, (mem m l') eqn:B; try reflexivity.
    - apply mem_In, S, mem_In in A. congruence.
    - apply mem_In, S, mem_In in B. congruence.
  Qed.

  Variables (path : string) (src : option string) (nol : list Z).
  Variables (sd : list (string * string) -> pyval -> res bool) (dump : pyval -> string).
  Notation e := (mkEnv c path src nol sd dump).
  Notation e' := (mkEnv c' path src nol sd dump).

  Lemma tour_same : tour e' v = tour e v /\ forall s, tour e v = Ok s -> P ok s.
  Proof.
    rewrite Rest. apply tour_ag.
    - exact made_types.
    - exact made_dot.
    - exact made_part.
    - intros m M. apply mem_iff, (ab_names _ _ _ Others), M.
    - intros m k M. apply mem_iff, (ab_kwargs _ _ _ Others), M.
    - intros t. apply mem_iff, (ab_handlers _ _ _ Others).
    - intros t. apply mem_iff, (ab_encodings _ _ _ Others).
    - exact made_fine.
  Qed.

  Lemma steps_same s : P ok s -> steps e' s = steps e s.
  Proof.
    intros H. unfold steps. change (bps_of e) with (c_backports c). change (bps_of e') with (c_backports c').
    pose proof (ab_backports _ _ _ Others) as B.
    do 6 f_equal. f_equal; [|f_equal; [|f_equal]].
    - apply rule_steps_same. intros m I. apply (mod_same _ _ ok B made_sub), (p_modules _ _ H), I.
    - apply rule_steps_same. intros m I. apply (mem_req_same _ _ ok B made_sub), (p_members _ _ H), I.
    - apply rule_steps_same. intros [f [k|]] I; [|reflexivity]. cbn [fst snd]. apply (kwarg_same _ _ ok B made_sub). exact (p_kwargs _ _ H _ I).
  Qed.

  Lemma add_versions_same w i en m s : add_versions e' w i en m s = add_versions e w i en m s.
  Proof. rewrite Rest. reflexivity. Qed.
  Lemma run_steps_same l : forall m s, run_steps e' l m s = run_steps e l m s.
  Proof.
    induction l as [|[w i en|y] l IH]; intros m s; cbn [run_steps]; [reflexivity| |reflexivity].
    rewrite add_versions_same. destruct (add_versions e w i en m s) as [[m1 s1]|]; [apply IH|reflexivity].
  Qed.
  Lemma minimum_same s : P ok s -> minimum_versions e' s = minimum_versions e s.
  Proof.
    intros H. unfold minimum_versions. rewrite steps_same by exact H.
    assert (E : verbose_print_v e' 2 "print(expr)" None (Some (-1)) (Some (Some (2, 0), Some (3, 0))) None =
                verbose_print_v e 2 "print(expr)" None (Some (-1)) (Some (Some (2, 0), Some (3, 0))) None) by (rewrite Rest; reflexivity).
    rewrite E. destruct (when (has_flag s FPrintV3) _ s) as [s1|]; [apply run_steps_same|reflexivity].
  Qed.
End Named.
