(** What depends on the statements around: awaits and yields in a function, awaits in a comprehension,
    continue in finally, functions of a module. Lemmas for C38. *)
From Verif Require Import PyBase PyLemmas Utility RulesData Rules Config Formats Paths AstKinds Ast State Visitor
  Spec_Base Spec_Visitor Spec_Same Spec_MinVersions Spec_Seen Proof_Shapes Proof_Runs Proof_Handlers Proof_Brackets Proof_Tour Proof_Claims Proof_Scopes Proof_Same Proof_Forms
  Proof_Seen Proof_Strings.

(** Counters of awaits and yields do not fall, those of the statements around are as before, and no feature is lost. *)
Definition calm (s s' : st) : Prop :=
  s_seen_await s <= s_seen_await s' /\ s_seen_yield s <= s_seen_yield s' /\ s_seen_for s' = s_seen_for s /\
  s_seen_while s' = s_seen_while s /\ s_try_finally s' = s_try_finally s /\ s_depth s' = s_depth s /\ incl (s_flags s) (s_flags s').
Lemma calm_refl s : calm s s.
Proof. repeat split; auto using incl_refl; lia. Qed.
Lemma calm_tran s1 s2 s3 : calm s1 s2 -> calm s2 s3 -> calm s1 s3.
Proof.
  intros (A1 & A2 & A3 & A4 & A5 & A6 & A7) (B1 & B2 & B3 & B4 & B5 & B6 & B7).
  repeat split; try lia; try congruence. eapply incl_tran; eassumption.
Qed.

Lemma runs_calm e T s s' : runs e T s s' -> calm s s'.
Proof.
  induction 1; try (repeat split; cbn; auto using incl_refl, incl_tl; lia).
  - eapply calm_tran; eassumption.
  - destruct IHruns as (A1 & A2 & A3 & A4 & A5 & A6 & A7). cbn in *. repeat split; cbn; auto. lia.
  - destruct IHruns as (A1 & A2 & A3 & A4 & A5 & A6 & A7). repeat split; cbn; auto. apply incl_tl, A7.
  - destruct IHruns as (A1 & A2 & A3 & A4 & A5 & A6 & A7). repeat split; cbn; auto. apply incl_tl, A7.
  - destruct IHruns as (A1 & A2 & A3 & A4 & A5 & A6 & A7). repeat split; cbn; auto.
  - destruct IHruns as (A1 & A2 & A3 & A4 & A5 & A6 & A7). repeat split; cbn; auto; lia.
  - destruct IHruns as (A1 & A2 & A3 & A4 & A5 & A6 & A7). repeat split; cbn; auto; lia.
  - destruct IHruns as (A1 & A2 & A3 & A4 & A5 & A6 & A7). repeat split; cbn; auto; lia.
  - destruct IHruns as (A1 & A2 & A3 & A4 & A5 & A6 & A7). cbn in *. repeat split; cbn; auto; lia.
  - destruct IHruns as (A1 & A2 & A3 & A4 & A5 & A6 & A7). cbn in *. repeat split; cbn; auto; lia.
  - destruct IHruns as (A1 & A2 & A3 & A4 & A5 & A6 & A7). cbn in *. repeat split; cbn; auto.
    rewrite A5. apply removelast_last.
  - exact IHruns.
  - destruct IHruns as (A1 & A2 & A3 & A4 & A5 & A6 & A7). cbn in *. repeat split; cbn; auto.
  - destruct IHruns as (A1 & A2 & A3 & A4 & A5 & A6 & A7). cbn in *. repeat split; cbn; auto.
  - destruct IHruns as (A1 & A2 & A3 & A4 & A5 & A6 & A7). cbn in *. repeat split; cbn; auto.
  - exact IHruns.
Qed.

Definition calms (a : act) : Prop := forall s s', a s = Ok s' -> calm s s'.
Lemma does_calms e T a : does e T a -> calms a.
Proof. intros D s s' E. exact (runs_calm _ _ _ _ (D _ _ E)). Qed.

Section Calms.
  Variable e : env.
  Lemma calms_nop : calms nop.
  Proof. intros s s' E. injection E as <-. apply calm_refl. Qed.
  Lemma calms_fail x : calms (fail x).
  Proof. intros s s' E. discriminate. Qed.
  Lemma calms_seq a b : calms a -> calms b -> calms (a >> b).
  Proof. intros X Y s s' E. destruct (seq_ok _ _ _ _ E) as (s1 & E1 & E2). exact (calm_tran _ _ _ (X _ _ E1) (Y _ _ E2)). Qed.
  Lemma calms_when b a : calms a -> calms (when b a).
  Proof. destruct b; [auto|]. intros _. apply calms_nop. Qed.
  Lemma calms_rd f : (forall s, calms (f s)) -> calms (rd f).
  Proof. intros F s s' E. exact (F s s s' E). Qed.
  Lemma calms_with_res {A} (m : res A) f : (forall a, calms (f a)) -> calms (with_res m f).
  Proof. intros F. destruct m; [apply F|apply calms_fail]. Qed.
  Lemma calms_each {A} (f : A -> act) l : (forall x, In x l -> calms (f x)) -> calms (each f l).
  Proof.
    induction l as [|x r IH]; intros F; [apply calms_nop|]. cbn [each]. apply calms_seq; [apply F; left; reflexivity|].
    apply IH. intros y I. apply F. right. exact I.
  Qed.
  Lemma calms_scoped a : calms a -> calms (scoped a).
  Proof.
    intros X s s' E. unfold scoped in E. destruct (a s) as [s1|] eqn:E1; [|discriminate]. injection E as <-. exact (X _ _ E1).
  Qed.
  Lemma calms_no_line l a : calms a -> calms (unless_no_line e l a).
  Proof. intros X. unfold unless_no_line. destruct (is_no_line e l); [apply calms_nop|exact X]. Qed.
  Lemma calms_print lv m en li ve pl : calms (verbose_print_v e lv m en li ve pl).
  Proof. intros s s' E. destruct (print_out _ _ _ _ _ _ _ _ _ E) as (o & ->). repeat split; cbn; auto using incl_refl; lia. Qed.
  Lemma calms_flag f : calms (set_flag f).
  Proof.
    intros s s' E. unfold set_flag, upd in E. injection E as <-. destruct (existsb _ _); [apply calm_refl|].
    repeat split; cbn; auto using incl_refl, incl_tl; lia.
  Qed.
  Lemma calms_upd f : (forall s, calm s (f s)) -> calms (upd f).
  Proof. intros H s s' E. injection E as <-. apply H. Qed.
  Lemma calms_generic v ks : calms (visit_fields ks) -> calms (generic_visit e v ks).
  Proof.
    intros X s s' E. unfold generic_visit in E.
    destruct (seq_ok _ _ _ _ E) as (s1 & E1 & R1). clear E. destruct (seq_ok _ _ _ _ R1) as (s2 & E2 & R2). clear R1.
    destruct (seq_ok _ _ _ _ R2) as (s3 & E3 & R3). clear R2. destruct (seq_ok _ _ _ _ R3) as (s4 & E4 & R4). clear R3.
    injection R4 as <-. injection E2 as <-. apply X in E4.
    assert (C1 : calm s s1).
    { destruct (pos_of v) as [[l c]|]; injection E1 as <-; [repeat split; cbn; auto using incl_refl; lia|apply calm_refl]. }
    assert (C3 : calm (u_depth (s_depth s1 + 1) s1) s3).
    { unfold when in E3. destruct (_ && _); injection E3 as <-; [repeat split; cbn; auto using incl_refl; lia|apply calm_refl]. }
    pose proof (calm_tran _ _ _ C3 E4) as C4.
    apply (calm_tran _ _ _ C1). destruct C4 as (A1 & A2 & A3 & A4 & A5 & A6 & A7). cbn in *. repeat split; cbn; auto. lia.
  Qed.
End Calms.
Ltac calm_upd := repeat split; cbn; auto using incl_refl, incl_tl; lia.
Ltac c1 :=
  lazymatch goal with
  | |- calms nop => apply calms_nop
  | |- calms (fail _) => apply calms_fail
  | |- calms (_ >> _) => apply calms_seq
  | |- calms (when _ _) => apply calms_when
  | |- calms (rd _) => apply calms_rd; intros ?s
  | |- calms (scoped _) => apply calms_scoped
  | |- calms (with_res _ _) => apply calms_with_res; intros ?r
  | |- calms (unless_no_line _ _ _) => apply calms_no_line
  | |- calms (each _ _) => apply calms_each; intros ?x ?I
  | |- calms (verbose_print_v _ _ _ _ _ _ _) => apply calms_print
  | |- calms (vv _ _ _) => apply calms_print
  | |- calms (vv_pl _ _ _ _) => apply calms_print
  | |- calms (vvl _ _ _ _) => apply calms_print
  | |- calms (vvl_pl _ _ _ _) => apply calms_print
  | |- calms (vv_msg _ _) => apply calms_print
  | |- calms (vvl_msg _ _ _) => apply calms_print
  | |- calms (vvv _ _ _) => apply calms_print
  | |- calms (vvvv _ _) => apply calms_print
  | |- calms (set_flag _) => apply calms_flag
  | |- calms (upd _) => apply calms_upd; intros ?s; solve [calm_upd]
  | |- calms (if ?b then _ else _) => destruct b
  | |- calms (match ?x with _ => _ end) => destruct x
  end.
Ltac cc := repeat c1.

(** ** From a fact before to a fact after *)
Lemma flag_set f s s' : set_flag f s = Ok s' -> In f (s_flags s').
Proof.
  intros E. unfold set_flag, upd in E. injection E as <-. destruct (existsb (flag_eqb f) (s_flags s)) eqn:X; [|left; reflexivity].
  apply existsb_exists in X as (y & J & Y). unfold flag_eqb in Y. destruct (flag_eq_dec f y) as [->|]; [exact J|discriminate].
Qed.
Definition leads (I Q : st -> Prop) (a : act) : Prop := forall s s', I s -> a s = Ok s' -> Q s'.

Section Leads.
  Variables (e : env) (stops : list kind) (I Q : st -> Prop).
  Notation leads := (leads I Q).
  Hypothesis HI : forall s s', calm s s' -> I s -> I s'.
  Hypothesis HQ : forall s s', calm s s' -> Q s -> Q s'.
  Hypothesis HD : forall z s, (I s -> I (u_depth z s)) /\ (Q s -> Q (u_depth z s)).
  Hypothesis HY : ~ In KFunctionDef stops \/ ~ In KAsyncFunctionDef stops -> forall z s, Q s -> Q (u_seen_yield z s).
  Hypothesis HA : ~ In KAsyncFunctionDef stops \/ ~ In Kcomprehension stops -> forall z s, Q s -> Q (u_seen_await z s).
  Hypothesis HF : ~ In KFor stops \/ ~ In KAsyncFor stops -> forall z s, (I s -> I (u_seen_for z s)) /\ (Q s -> Q (u_seen_for z s)).
  Hypothesis HW : ~ In KWhile stops -> forall z s, (I s -> I (u_seen_while z s)) /\ (Q s -> Q (u_seen_while z s)).

  Lemma leads_seq_l a b : leads a -> calms b -> leads (a >> b).
  Proof. intros X Y s s' H E. destruct (seq_ok _ _ _ _ E) as (s1 & E1 & E2). exact (HQ _ _ (Y _ _ E2) (X _ _ H E1)). Qed.
  Lemma leads_seq_r a b : calms a -> leads b -> leads (a >> b).
  Proof. intros X Y s s' H E. destruct (seq_ok _ _ _ _ E) as (s1 & E1 & E2). exact (Y _ _ (HI _ _ (X _ _ E1) H) E2). Qed.
  Definition after (b : act) : Prop := forall s s', Q s -> b s = Ok s' -> Q s'.
  Lemma leads_after a b : leads a -> after b -> leads (a >> b).
  Proof. intros X Y s s' H E. destruct (seq_ok _ _ _ _ E) as (s1 & E1 & E2). exact (Y _ _ (X _ _ H E1) E2). Qed.
  Lemma after_seq a b : after a -> after b -> after (a >> b).
  Proof. intros X Y s s' H E. destruct (seq_ok _ _ _ _ E) as (s1 & E1 & E2). exact (Y _ _ (X _ _ H E1) E2). Qed.
  Lemma after_calm a : calms a -> after a.
  Proof. intros C s s' H E. exact (HQ _ _ (C _ _ E) H). Qed.
  Lemma after_upd f : (forall s, Q s -> Q (f s)) -> after (upd f).
  Proof. intros C s s' H E. injection E as <-. exact (C _ H). Qed.
  Lemma leads_upd_l a f : leads a -> (forall s, Q s -> Q (f s)) -> leads (a >> upd f).
  Proof. intros X Y s s' H E. destruct (seq_ok _ _ _ _ E) as (s1 & E1 & E2). injection E2 as <-. exact (Y _ (X _ _ H E1)). Qed.
  Lemma leads_upd_r f b : (forall s, I s -> I (f s)) -> leads b -> leads (upd f >> b).
  Proof. intros X Y s s' H E. destruct (seq_ok _ _ _ _ E) as (s1 & E1 & E2). injection E1 as <-. exact (Y _ _ (X _ H) E2). Qed.
  Lemma leads_rd f : (forall s, leads (f s)) -> leads (rd f).
  Proof. intros F s s' H E. exact (F s s s' H E). Qed.
  Lemma leads_with_res {A} (m : res A) f : (forall a, leads (f a)) -> leads (with_res m f).
  Proof. intros F. destruct m; [apply F|]. intros s s' H E. discriminate. Qed.
  Lemma leads_each {A} (f : A -> act) l x : In x l -> leads (f x) -> (forall y, In y l -> calms (f y)) -> leads (each f l).
  Proof.
    intros J X. induction l as [|y r IH]; intros C; [destruct J|]. cbn [each]. destruct J as [->|J].
    - apply leads_seq_l; [exact X|]. apply calms_each. intros z Jz. apply C. right. exact Jz.
    - apply leads_seq_r; [apply C; left; reflexivity|]. apply IH; [exact J|]. intros z Jz. apply C. right. exact Jz.
  Qed.
  Lemma leads_scoped a : leads a -> leads (scoped a).
  Proof.
    intros X s s' H E. unfold scoped in E. destruct (a s) as [s1|] eqn:E1; [|discriminate]. injection E as <-.
    refine (HQ _ _ _ (X _ _ H E1)). calm_upd.
  Qed.
  Lemma leads_no_line l a : ~ In l (e_nolines e) -> leads a -> leads (unless_no_line e l a).
  Proof.
    intros N X. unfold unless_no_line, is_no_line. destruct (existsb (Z.eqb l) (e_nolines e)) eqn:E; [|exact X].
    exfalso. apply N. apply existsb_exists in E as (z & J & Z). apply Z.eqb_eq in Z as ->. exact J.
  Qed.
  Lemma leads_generic v ks : leads (visit_fields ks) -> leads (generic_visit e v ks).
  Proof.
    intros X. unfold generic_visit. apply leads_seq_r; [cc|]. apply leads_upd_r; [intros s; apply HD|].
    apply leads_seq_r; [cc|]. apply leads_upd_l; [exact X|]. intros s. apply HD.
  Qed.

  Section Node.
  Variables (k : kind) (u : N) (pos : option (Z * Z)) (fs : list (string * pyval)) (ks : list (string * ksem)).
  Notation v := (VNode k u pos fs).
  Variable f : string.
  Hypothesis O : opens e false v f.
  Hypothesis NS : ~ In k stops.
  Hypothesis KF : calms (visit_fields ks).
  Hypothesis KD : calms (visit_fields (drop_returns ks)).
  Hypothesis KT : forall x, In x (k_list (kid "finalbody" ks)) -> calms (k_visit x).
  Hypothesis KG : forall x, In x (k_list (kid "body" ks)) -> calms (k_gvisit x).
  Hypothesis PF : leads (visit_fields ks).
  Hypothesis PD : f <> "returns" -> leads (visit_fields (drop_returns ks)).

  Lemma blind_here j : k = j -> In j blind -> False.
  Proof. exact (not_blind e k u pos fs false f O j). Qed.
  Lemma counted_here j : k = j -> In j line_tested -> counted e v.
  Proof. exact (is_counted e k u pos fs false f O j). Qed.

  Lemma calms_annotations l args : calms (arg_annotations e l args).
  Proof. induction args as [|a r IH]; cbn [arg_annotations]; cc; try exact IH. Qed.

  Ltac leaf :=
    lazymatch goal with
    | |- calms (generic_visit _ _ _) => apply calms_generic; first [exact KF | exact KD]
    | |- calms (arg_annotations _ _ _) => apply calms_annotations
    | |- calms (k_visit _) => apply KT; assumption
    | |- calms (k_gvisit _) => apply KG; assumption
    end.
  Ltac unf :=
    unfold visit_import, visit_import_from, visit_name, gen_unpacking, check_gen_unp_seq, check_gen_unp_dict, visit_attribute,
      attr_resolve, attr_module, visit_binop, visit_constant, visit_ellipsis, visit_joinedstr, visit_keyword, visit_call,
      call_name, call_attribute, strftime_arg, add_strftime_directive, when_const, check_gen_unp_call, push_fn, pop_fn,
      add_bytes_directive, visit_assign, visit_augassign, visit_annassign, check_relaxed_decorators, check_user_func_decorators,
      visit_functiondef, visit_asyncfunctiondef, handle_functiondef, visit_await, visit_classdef, visit_namedexpr,
      visit_arguments, visit_nonlocal, visit_yieldfrom, visit_match, visit_typealias, visit_yield,
      visit_raise, visit_excepthandler, visit_setcomp, visit_dictcomp, comp_scope, visit_comprehension, visit_matmult,
      visit_continue, visit_with, visit_asyncwith, handle_with, visit_dict, visit_set, visit_seq, check_gen_unp_seq,
      check_gen_unp_dict, gen_unpacking, check_builtin_generic, visit_subscript, visit_cond, visit_asyncfor,
      handle_for, visit_while, visit_try, visit_starred, add_lc, add_arg_def, check_relaxed_decorators, check_user_func_decorators,
      check_builtin_generic.
  Ltac deep := repeat first [c1 | leaf | progress unfold add_module, add_member, add_kwargs, add_user_func_deco, add_typecodes, add_lc_val, check_codecs_function,
      add_name_res_type, add_user_def_node, add_target_defs, add_name_res_assign, add_names_as_members, generic_match, add_user_def, add_name_res, add_lc,
      add_codecs_error_handler, add_codecs_encoding, when_const, add_ceh, add_cenc, add_array_typecode].

  Ltac NSs := subst; auto.
  Ltac q1 :=
    lazymatch goal with
    | |- leads (?a >> ?b) =>
        lazymatch a with
        | context [generic_visit] =>
            apply leads_after; [|repeat first [apply after_seq | apply after_calm; solve [deep] | apply after_upd; intros ?s; apply HY; solve [NSs] | apply after_upd; intros ?s; apply HA; solve [NSs] | apply after_upd; intros ?s; apply HF; solve [NSs] | apply after_upd; intros ?s; apply HW; solve [NSs]]]
        | upd (fun s => u_seen_for _ s) => apply leads_upd_r; [intros ?s; apply HF; solve [NSs]|]
        | upd (fun s => u_seen_while _ s) => apply leads_upd_r; [intros ?s; apply HW; solve [NSs]|]
        | upd (fun s => u_try_finally _ s) => fail
        | _ => apply leads_seq_r; [solve [deep]|]
        end
    | |- leads (rd _) => apply leads_rd; intros ?s
    | |- leads (scoped _) => apply leads_scoped
    | |- leads (with_res _ _) => apply leads_with_res; intros ?r
    | |- leads (unless_no_line _ _ _) => apply leads_no_line; [eapply counted_here; [eassumption|apply kin; reflexivity]|]
    | |- leads (generic_visit _ _ _) => apply leads_generic; first [exact PF | apply PD]
    | |- leads (if ?b then _ else _) => let C := fresh "C" in destruct b eqn:C
    | |- leads (match ?x with _ => _ end) => let Q := fresh "Q" in destruct x eqn:Q
    end.

  Lemma leads_handler : leads (handler e k u pos fs ks).
  Proof.
    enough (H : forall j, k = j -> leads (handler e j u pos fs ks)) by exact (H k eq_refl).
    intros j K. destruct j; cbn [handler]; try (apply leads_generic, PF); try (exfalso; eapply blind_here; [eassumption|apply kin; reflexivity]).
    all: unf; repeat q1.
    - exfalso. rewrite (proj1 (proj2 (proj2 O))) in C; [discriminate|]. subst k. reflexivity.
    - intros ->. apply andb_prop in C as [C _]. apply negb_true_iff in C. destruct O as (_ & _ & _ & N & _).
      rewrite N in C; [discriminate| |reflexivity]. right. subst k. reflexivity.
    - intros ->. apply andb_prop in C as [C _]. apply negb_true_iff in C. destruct O as (_ & _ & _ & N & _).
      rewrite N in C; [discriminate| |reflexivity]. left. subst k. reflexivity.
    - intros s s' H E. destruct (seq_ok _ _ _ _ E) as (s1 & E1 & R1). clear E. destruct (seq_ok _ _ _ _ R1) as (s2 & E2 & R2). clear R1.
      destruct (seq_ok _ _ _ _ R2) as (s3 & E3 & R3). clear R2. injection E1 as <-. injection E3 as <-.
      refine (leads_generic _ _ PF _ _ _ R3). apply (HI s); [|exact H].
      assert (C : calms (each k_visit (k_list (kid "finalbody" ks)))) by (apply calms_each; exact KT).
      apply C in E2. destruct E2 as (A1 & A2 & A3 & A4 & A5 & A6 & A7). cbn in *. repeat split; cbn; auto.
      rewrite A5. apply removelast_last.
  Qed.

  Lemma leads_function : function_def v -> leads (handle_functiondef e v fs ks).
  Proof.
    intros Fn. unf. repeat q1. intros ->. apply andb_prop in C as [C _]. apply negb_true_iff in C. destruct O as (_ & _ & _ & N & _).
    rewrite N in C; [discriminate|exact Fn|reflexivity].
  Qed.

  (** Functions of a module. *)
  Lemma module_function s s' : s_depth s = 1 -> is_init_file e = true ->
    items "posonlyargs" (fld "args" fs) = [] -> items "kwonlyargs" (fld "args" fs) = [] -> attr "kwarg" (fld "args" fs) = VNone ->
    handle_functiondef e v fs ks s = Ok s' ->
    (fstr "name" fs = "__dir__" -> List.length (items "args" (fld "args" fs)) = 0%nat -> In FModuleDir (s_flags s')) /\
    (fstr "name" fs = "__getattr__" -> List.length (items "args" (fld "args" fs)) = 1%nat -> In FModuleGetattr (s_flags s')).
  Proof.
    intros D Init Pos Kw Kwarg E. unfold handle_functiondef in E.
    destruct (seq_ok _ _ _ _ E) as (s1 & E1 & R1). clear E. destruct (seq_ok _ _ _ _ R1) as (s2 & E2 & R2). clear R1.
    assert (C1 : calm s s1) by (revert E1; generalize s, s1; change (calms (add_user_def (fstr "name" fs))); deep).
    assert (C2 : calm s2 s').
    { revert R2. generalize s2, s'. match goal with |- forall a b, ?act a = Ok b -> calm a b => change (calms act) end.
      unfold check_relaxed_decorators, check_user_func_decorators. deep. }
    assert (D1 : s_depth s1 = 1) by (destruct C1 as (_ & _ & _ & _ & _ & A & _); congruence).
    unfold items in *. unfold rd in E2. rewrite D1, Init, Pos, Kw, Kwarg in E2. cbn [Z.eqb Pos.eqb andb List.length Nat.eqb is_none when] in E2.
    split; intros Name Len; rewrite Name, Len in E2; cbn [String.eqb Ascii.eqb Bool.eqb Nat.eqb andb when] in E2;
      destruct (seq_ok _ _ _ _ E2) as (s3 & E3 & R3); apply calms_print in R3; apply C2, R3; exact (flag_set _ _ _ E3).
  Qed.
  End Node.

  (** Whole trees. *)
  Notation kids fs := (map (fun fx : string * pyval => (fst fx, sem e (snd fx))) fs).
  Lemma calm_visit v : calms (visit e v).
  Proof. exact (does_calms _ _ _ (visit_runs e v)). Qed.
  Lemma calm_gvisit v : calms (k_gvisit (sem e v)).
  Proof. exact (does_calms _ _ _ (proj2 (proj1 (fine_all e v)))). Qed.
  Lemma calm_field v : calms (visit_field (sem e v)).
  Proof.
    destruct v as [ |b|z|s|s|s|s| |l|k u p fs]; try apply calms_nop; [|exact (calm_visit (VNode k u p fs))].
    cbn [sem visit_field]. apply calms_each. intros x J. apply in_map_iff in J as (y & <- & J). apply calm_visit.
  Qed.
  Lemma calm_fields fs : calms (visit_fields (kids fs)) /\ calms (visit_fields (drop_returns (kids fs))).
  Proof.
    split; apply calms_each.
    - intros [g x] J. apply in_map_iff in J as ([g' y] & Q' & J). injection Q' as <- <-. apply calm_field.
    - intros [g x] J. unfold drop_returns in J. apply in_map_iff in J as ([g' k2] & Q' & J). cbn [fst snd] in Q'.
      destruct (g' =? "returns")%string; injection Q' as <- <-; [apply calms_nop|].
      apply in_map_iff in J as ([g3 y] & Q' & J). injection Q' as <- <-. apply calm_field.
  Qed.
  Lemma calm_kid f fs x : In x (k_list (kid f (kids fs))) -> calms (k_visit x) /\ calms (k_gvisit x).
  Proof.
    intros J. destruct (kid_list _ _ _ _ J) as (y & g & l & _ & _ & -> & _). split; [apply calm_visit|apply calm_gvisit].
  Qed.

  Lemma leads_fields f x k u p fs : child f x (VNode k u p fs) -> leads (visit e x) ->
    leads (visit_fields (kids fs)) /\ (f <> "returns" -> leads (visit_fields (drop_returns (kids fs)))).
  Proof.
    intros (Nx & y & J & Y) X.
    assert (F : leads (visit_field (sem e y))).
    { destruct Y as [->|(l & -> & Jl)].
      - destruct x; try discriminate Nx. exact X.
      - cbn [sem visit_field]. apply leads_each with (x := sem e x); [apply in_map, Jl|exact X|].
        intros z Jz. apply in_map_iff in Jz as (w & <- & Jw). apply calm_visit. }
    split.
    - apply leads_each with (x := (f, sem e y)); [exact (in_map (fun fx => (fst fx, sem e (snd fx))) _ _ J)|exact F|].
      intros [g z] Jz. apply in_map_iff in Jz as ([g' w] & Q' & Jw). injection Q' as <- <-. apply calm_field.
    - intros R. apply leads_each with (x := (f, sem e y)); [|exact F|].
      + unfold drop_returns. apply in_map_iff. exists (f, sem e y). cbn [fst]. apply String.eqb_neq in R. rewrite R. split; [reflexivity|].
        exact (in_map (fun fx => (fst fx, sem e (snd fx))) _ _ J).
      + intros [g z] Jz. unfold drop_returns in Jz. apply in_map_iff in Jz as ([g' k2] & Q' & Jk). cbn [fst snd] in Q'.
        destruct (g' =? "returns")%string; injection Q' as <- <-; [apply calms_nop|].
        apply in_map_iff in Jk as ([g3 w] & Q' & Jk). injection Q' as <- <-. apply calm_field.
  Qed.
  Lemma leads_child f x v : opens e false v f -> ~ one_of stops v -> child f x v -> leads (visit e x) -> leads (visit e v).
  Proof.
    intros O N C X. destruct v as [ |b|z|s|s|s|s| |l|k u p fs]; try (exfalso; destruct C as (_ & y & [] & _)).
    unfold visit. cbn [sem k_visit]. destruct (calm_fields fs) as [C1 C2]. destruct (leads_fields f x k u p fs C X) as [L1 L2].
    apply leads_handler with (f := f); auto.
    - intros I'. apply N. exists k. split; [exact I'|apply N.eqb_refl].
    - intros z Jz. exact (proj1 (calm_kid _ _ _ Jz)).
    - intros z Jz. exact (proj2 (calm_kid _ _ _ Jz)).
  Qed.

  Lemma leads_sight n v : sight e stops n v -> leads (visit e n) -> leads (visit e v).
  Proof.
    induction 1 as [N|v f x N O C S IH]; intros X; [exact X|]. exact (leads_child f x v O N C (IH X)).
  Qed.
End Leads.

(** ** Awaits, yields and continues *)
Notation at_least get base := (fun s : st => base <= get s).
Notation above get base := (fun s : st => base < get s).

Lemma counted_line e v : counted e v -> is_no_line e (lineno v) = false.
Proof.
  intros C. destruct (is_no_line e (lineno v)) eqn:NL; [|reflexivity].
  exfalso. apply C. apply existsb_exists in NL as (z & J & Z). apply Z.eqb_eq in Z as ->. exact J.
Qed.

Lemma await_leads e w base : isa KAwait w -> counted e w -> leads (at_least s_seen_await base) (above s_seen_await base) (visit e w).
Proof.
  intros K C s s' H E. destruct w as [ |b|z|t|t|t|t| |l|k u p fs]; try discriminate K.
  assert (Ek : k = KAwait) by (symmetry; apply kind_eqb_eq, K). subst k. unfold visit in E. cbn [sem k_visit handler] in E.
  unfold visit_await, unless_no_line in E. rewrite (counted_line e _ C) in E.
  destruct (seq_ok _ _ _ _ E) as (s1 & E1 & R1). clear E. destruct (seq_ok _ _ _ _ R1) as (s2 & E2 & R2). clear R1.
  destruct (seq_ok _ _ _ _ R2) as (s3 & E3 & R3). clear R2. injection E3 as <-.
  apply calms_flag in E1. apply calms_print in E2. apply (calms_generic e _ _ (proj1 (calm_fields e fs))) in R3.
  destruct E1 as (A1 & _), E2 as (A2 & _), R3 as (A3 & _). cbn in *. lia.
Qed.
Lemma yield_leads e w base : isa KYield w -> counted e w -> leads (at_least s_seen_yield base) (above s_seen_yield base) (visit e w).
Proof.
  intros K C s s' H E. destruct w as [ |b|z|t|t|t|t| |l|k u p fs]; try discriminate K.
  assert (Ek : k = KYield) by (symmetry; apply kind_eqb_eq, K). subst k. unfold visit in E. cbn [sem k_visit handler] in E.
  unfold visit_yield, unless_no_line in E. rewrite (counted_line e _ C) in E.
  destruct (seq_ok _ _ _ _ E) as (s3 & E3 & R3). clear E. injection E3 as <-.
  apply (calms_generic e _ _ (proj1 (calm_fields e fs))) in R3. destruct R3 as (_ & A3 & _). cbn in *. lia.
Qed.

(** The innermost finally is not in a loop further in. *)
Definition in_finally (s : st) : Prop := exists l, s_try_finally s = l ++ [(s_seen_for s, s_seen_while s)].
Lemma continue_leads e c : isa KContinue c -> leads in_finally (fun s => In FContinueInFinally (s_flags s)) (visit e c).
Proof.
  intros K s s' (l & H) E. destruct c as [ |b|z|t|t|t|t| |l0|k u p fs]; try discriminate K.
  assert (Ek : k = KContinue) by (symmetry; apply kind_eqb_eq, K). subst k. unfold visit in E. cbn [sem k_visit handler] in E.
  unfold visit_continue, rd in E. rewrite H, rev_app_distr in E. cbn [rev app] in E. rewrite !Z.eqb_refl in E. cbn [andb when] in E.
  destruct (seq_ok _ _ _ _ E) as (s1 & E1 & R1). clear E. apply calms_print in R1. apply R1.
  exact (flag_set _ _ _ E1).
Qed.

Section Instances.
  Variable e : env.
  Lemma await_sight w v base : sight e await_stops w v -> isa KAwait w -> counted e w ->
    leads (at_least s_seen_await base) (above s_seen_await base) (visit e v).
  Proof.
    intros S K C. apply leads_sight with (stops := await_stops) (n := w); try exact S; try (apply await_leads; assumption).
    - intros s s' (A & _) H. lia.
    - intros s s' (A & _) H. lia.
    - intros z s. split; auto.
    - intros _ z s H. exact H.
    - intros [N|N]; exfalso; apply N; simpl; auto.
    - intros _ z s. split; auto.
    - intros _ z s. split; auto.
  Qed.
  Lemma yield_sight w v base : sight e yield_stops w v -> isa KYield w -> counted e w ->
    leads (at_least s_seen_yield base) (above s_seen_yield base) (visit e v).
  Proof.
    intros S K C. apply leads_sight with (stops := yield_stops) (n := w); try exact S; try (apply yield_leads; assumption).
    - intros s s' (_ & A & _) H. lia.
    - intros s s' (_ & A & _) H. lia.
    - intros z s. split; auto.
    - intros [N|N]; exfalso; apply N; simpl; auto.
    - intros _ z s H. exact H.
    - intros _ z s. split; auto.
    - intros _ z s. split; auto.
  Qed.
  Lemma continue_sight c v : sight e loops c v -> isa KContinue c ->
    leads in_finally (fun s => In FContinueInFinally (s_flags s)) (visit e v).
  Proof.
    intros S K. apply leads_sight with (stops := loops) (n := c); try exact S; try (apply continue_leads; assumption).
    - intros s s' (_ & _ & A & B & C & _) (l & H). exists l. congruence.
    - intros s s' (_ & _ & _ & _ & _ & _ & A) H. apply A, H.
    - intros z s. split; auto.
    - intros _ z s H. exact H.
    - intros _ z s H. exact H.
    - intros [N|N]; exfalso; apply N; simpl; auto.
    - intros N. exfalso. apply N. simpl. auto.
  Qed.
End Instances.

(** ** The text of a parenthesised [with] *)
Lemma skip_blank w r : blank_or_backslash w -> skip_ws_bs (w +++ r) = skip_ws_bs r.
Proof.
  induction w as [|c w IH]; intros B; [reflexivity|]. rewrite app_cons_s. cbn [skip_ws_bs].
  destruct (B "" c w eq_refl) as [S|S].
  - rewrite S. cbn [orb]. apply IH. intros a d b E. apply (B (String c a) d b). rewrite E. reflexivity.
  - subst c. rewrite (proj2 (Ascii.eqb_eq bs bs) eq_refl), orb_true_r. apply IH. intros a d b E. apply (B (String bs a) d b). rewrite E. reflexivity.
Qed.
Lemma with_at w b : blank_or_backslash w -> with_paren_at ("with" +++ w +++ "(" +++ b) = true.
Proof.
  intros B. unfold with_paren_at. apply andb_true_iff. split; [apply startswith_iff; eexists; reflexivity|].
  change 4%nat with (String.length "with"). rewrite sdrop_app, skip_blank by exact B. reflexivity.
Qed.
Lemma with_search a : forall i r, with_paren_at r = true ->
  exists j, with_paren_search i (a +++ r) = Some j /\ (j <= i + String.length a)%nat.
Proof.
  induction a as [|c a IH]; intros i r H.
  - exists i. change ("" +++ r) with r. split; [|lia]. destruct r; cbn [with_paren_search]; rewrite H; reflexivity.
  - rewrite app_cons_s. cbn [with_paren_search]. destruct (with_paren_at (String c (a +++ r))).
    + exists i. split; [reflexivity|lia].
    + destruct (IH (S i) r H) as (j & E & L). exists j. split; [exact E|]. cbn [String.length]. lia.
Qed.
Lemma line_first l ls n : no_break l = true -> l <> "" -> exists rest, splitlines (join nl (firstn (S n) (l :: ls))) = l :: rest.
Proof.
  intros N E. cbn [firstn]. unfold splitlines. destruct (firstn n ls) as [|x f].
  - cbn [join]. replace (splitlines_aux false "" l) with (splitlines_aux false "" (l +++ "")) by (rewrite app_nil_s; reflexivity).
    rewrite splitlines_aux_pre by exact N. cbn.
    destruct l; [congruence|]. eexists. reflexivity.
  - change (join nl (l :: x :: f)) with (l +++ nl +++ join nl (x :: f)).
    rewrite splitlines_aux_pre by exact N. cbn. eexists. reflexivity.
Qed.
Lemma near_found e line : with_paren_near e line -> has_with_paren e line = true.
Proof.
  intros (src & l & ls & a & w & b & Sr & L0 & F & J & B & Len). unfold has_with_paren.
  rewrite (source_lines_exact e src line (line + 10) Sr), F.
  assert (NB : no_break l = true).
  { assert (I : In l (splitlines src)).
    { unfold lines_from in F. rewrite <- (firstn_skipn (Z.to_nat (line - 1)) (splitlines src)), F.
      apply in_or_app. right. left. reflexivity. }
    exact (splitlines_no_break l _ src "" (le_n _) eq_refl I). }
  assert (NE : l <> "") by (intros ->; cbn in Len; lia).
  set (m := (Z.to_nat (line + 10 + 1) - Z.to_nat (1 - line))%nat).
  assert (M : (11 <= m)%nat) by (unfold m; lia).
  assert (X : exists r, join nl (firstn m (l :: ls)) = join nl (firstn 11 (l :: ls)) +++ r).
  { destruct (join_firstn nl (firstn m (l :: ls)) 11) as (r & R). exists r. rewrite R at 1. f_equal. f_equal.
    rewrite firstn_firstn. f_equal. lia. }
  destruct X as (r & X). destruct (with_search a 0 ("with" +++ w +++ "(" +++ (b +++ r)) (with_at w _ B)) as (j & W & Lj).
  destruct m as [|m]; [lia|]. destruct (line_first l ls m NB NE) as (rest & R). rewrite R.
  replace (join nl (firstn (S m) (l :: ls))) with (a +++ "with" +++ w +++ "(" +++ (b +++ r)).
  - rewrite W. apply Nat.ltb_lt. lia.
  - rewrite X, J, !app_assoc_s. reflexivity.
Qed.

(** ** Nodes *)
Lemma calm_class_await : forall base (s s' : st), calm s s' -> base <= s_seen_await s -> base <= s_seen_await s'.
Proof. intros base s s' (A & _) H. lia. Qed.
Lemma calm_above_await : forall base (s s' : st), calm s s' -> base < s_seen_await s -> base < s_seen_await s'.
Proof. intros base s s' (A & _) H. lia. Qed.
Lemma calm_class_yield : forall base (s s' : st), calm s s' -> base <= s_seen_yield s -> base <= s_seen_yield s'.
Proof. intros base s s' (_ & A & _) H. lia. Qed.
Lemma calm_above_yield : forall base (s s' : st), calm s s' -> base < s_seen_yield s -> base < s_seen_yield s'.
Proof. intros base s s' (_ & A & _) H. lia. Qed.

Section Found.
  Variable e : env.
  Notation kids fs := (map (fun fx : string * pyval => (fst fx, sem e (snd fx))) fs).

  Lemma comprehension_flag n w s s' : isa Kcomprehension n -> sighted e await_stops w n -> isa KAwait w -> counted e w ->
    visit e n s = Ok s' -> In FAwaitInComprehension (s_flags s').
  Proof.
    intros K (f & x & O & C & S) Kw Cw E. destruct n as [ |b|z|t|t|t|t| |l|k u p fs]; try discriminate K.
    assert (Ek : k = Kcomprehension) by (symmetry; apply kind_eqb_eq, K). subst k. unfold visit in E. cbn [sem k_visit handler] in E.
    unfold visit_comprehension in E. destruct (seq_ok _ _ _ _ E) as (s1 & _ & R1). clear E. unfold rd at 1 in R1.
    destruct (seq_ok _ _ _ _ R1) as (s2 & E2 & R2). clear R1. destruct (seq_ok _ _ _ _ R2) as (s3 & E3 & R3). clear R2.
    injection R3 as <-. cbn [s_flags u_seen_await].
    assert (L : s_seen_await s1 < s_seen_await s2).
    { refine (leads_generic e (at_least s_seen_await (s_seen_await s1)) (above s_seen_await (s_seen_await s1))
                (calm_class_await _) _ _ _ _ s1 s2 (Z.le_refl _) E2); [intros z t; split; auto|].
      apply (leads_fields e _ _ (calm_class_await _) (calm_above_await _) f x Kcomprehension u p fs C).
      exact (await_sight e w x _ S Kw Cw). }
    unfold rd in E3. apply Z.ltb_lt in L. rewrite L in E3. cbn [when] in E3. destruct (seq_ok _ _ _ _ E3) as (s4 & E4 & R4).
    apply calms_print in R4. apply R4. exact (flag_set _ _ _ E4).
  Qed.

  Lemma async_generator_flag n y w s s' : isa KAsyncFunctionDef n -> counted e n -> sighted e yield_stops y n -> isa KYield y -> counted e y ->
    sighted e await_stops w n -> isa KAwait w -> counted e w -> visit e n s = Ok s' -> In FAsyncGenerator (s_flags s').
  Proof.
    intros K Cn (f & x & O & C & S) Ky Cy (f2 & x2 & O2 & C2 & S2) Kw Cw E.
    destruct n as [ |b|z|t|t|t|t| |l|k u p fs]; try discriminate K.
    assert (Ek : k = KAsyncFunctionDef) by (symmetry; apply kind_eqb_eq, K). subst k. unfold visit in E. cbn [sem k_visit handler] in E.
    unfold visit_asyncfunctiondef, unless_no_line in E. rewrite (counted_line e _ Cn) in E. unfold rd at 1 in E.
    destruct (seq_ok _ _ _ _ E) as (s1 & E1 & R1). clear E. destruct (seq_ok _ _ _ _ R1) as (s2 & E2 & R2). clear R1.
    destruct (seq_ok _ _ _ _ R2) as (s3 & E3 & R3). clear R2. destruct (seq_ok _ _ _ _ R3) as (s4 & E4 & R4). clear R3.
    destruct (seq_ok _ _ _ _ R4) as (s5 & E5 & R5). clear R4. injection R5 as <-. injection E5 as <-. cbn [s_flags u_seen_await u_seen_yield].
    assert (Fn : function_def (VNode KAsyncFunctionDef u p fs)) by (right; exact K).
    destruct (calm_fields e fs) as [D1 D2].
    assert (LY : s_seen_yield s < s_seen_yield s1).
    { destruct (leads_fields e _ _ (calm_class_yield _) (calm_above_yield _) f x KAsyncFunctionDef u p fs C
                  (yield_sight e y x (s_seen_yield s) S Ky Cy)) as [L1 L2].
      refine (leads_function e (at_least s_seen_yield (s_seen_yield s)) (above s_seen_yield (s_seen_yield s)) (calm_class_yield _) (calm_above_yield _) _
                KAsyncFunctionDef u p fs (kids fs) f O L1 L2 Fn s s1 (Z.le_refl _) E1). intros z t. split; auto. }
    assert (LA : s_seen_await s < s_seen_await s1).
    { destruct (leads_fields e _ _ (calm_class_await _) (calm_above_await _) f2 x2 KAsyncFunctionDef u p fs C2
                  (await_sight e w x2 (s_seen_await s) S2 Kw Cw)) as [L1 L2].
      refine (leads_function e (at_least s_seen_await (s_seen_await s)) (above s_seen_await (s_seen_await s)) (calm_class_await _) (calm_above_await _) _
                KAsyncFunctionDef u p fs (kids fs) f2 O2 L1 L2 Fn s s1 (Z.le_refl _) E1). intros z t. split; auto. }
    apply calms_flag in E2. apply calms_print in E3. pose proof (calm_tran _ _ _ E2 E3) as (A1 & A2 & _).
    unfold rd in E4. replace (_ && _) with true in E4.
    - cbn [when] in E4. destruct (seq_ok _ _ _ _ E4) as (s6 & E6 & R6). apply calms_print in R6. apply R6. exact (flag_set _ _ _ E6).
    - symmetry. apply andb_true_iff. split; apply Z.ltb_lt; lia.
  Qed.

  Lemma continue_flag n x c s s' : isa KTry n -> counted e n -> In x (items "finalbody" n) -> sight e loops c x -> isa KContinue c ->
    visit e n s = Ok s' -> In FContinueInFinally (s_flags s').
  Proof.
    intros K Cn Ix S Kc E. destruct n as [ |b|z|t|t|t|t| |l|k u p fs]; try discriminate K.
    assert (Ek : k = KTry) by (symmetry; apply kind_eqb_eq, K). subst k. unfold visit in E. cbn [sem k_visit handler] in E.
    unfold visit_try, unless_no_line in E. rewrite (counted_line e _ Cn) in E.
    destruct (seq_ok _ _ _ _ E) as (s1 & E1 & R1). clear E. destruct (seq_ok _ _ _ _ R1) as (s2 & E2 & R2). clear R1.
    destruct (seq_ok _ _ _ _ R2) as (s3 & E3 & R3). clear R2. injection E1 as <-. injection E3 as <-.
    apply (calms_generic e _ _ (proj1 (calm_fields e fs))) in R3. apply R3. cbn [s_flags u_try_finally].
    refine (leads_each in_finally (fun s => In FContinueInFinally (s_flags s)) _ _ k_visit _ (sem e x) _ _ _ _ s2 _ E2).
    - intros a b (_ & _ & A & B & C & _) (l & H). exists l. congruence.
    - intros a b (_ & _ & _ & _ & _ & _ & A) H. apply A, H.
    - change (items "finalbody" (VNode KTry u p fs)) with (flist "finalbody" fs) in Ix. unfold flist, fld in Ix. unfold kid. rewrite assoc_kids.
      destruct (assoc "finalbody" fs) as [b|]; [|exfalso; exact Ix]. destruct b; try (exfalso; exact Ix). apply (in_map (sem e)), Ix.
    - exact (continue_sight e c x S Kc).
    - intros z Jz. exact (proj1 (calm_kid _ _ _ _ Jz)).
    - exists (s_try_finally s). reflexivity.
  Qed.

  Lemma with_flag n x y l s s' : with_stmt n -> counted e n -> items "items" n = x :: y :: l -> with_paren_near e (lineno n) ->
    visit e n s = Ok s' -> In FWithParens (s_flags s').
  Proof.
    intros K C Is Near E. destruct n as [ |b|z|t|t|t|t| |l'|k u p fs]; try (destruct K as [K|K]; discriminate K).
    assert (H : exists s1, handle_with e (VNode k u p fs) fs (kids fs) s1 = Ok s').
    { unfold visit in E. destruct K as [K|K]; apply kind_eqb_eq in K; subst k; cbn [sem k_visit handler] in E;
      [unfold visit_with in E|unfold visit_asyncwith in E]; unfold unless_no_line in E; rewrite (counted_line e _ C) in E;
      destruct (seq_ok _ _ _ _ E) as (s1 & _ & R1); destruct (seq_ok _ _ _ _ R1) as (s2 & _ & R2); exists s2; exact R2. }
    clear E. destruct H as (s1 & E). unfold handle_with in E. cbv zeta in E.
    change (flist "items" fs) with (items "items" (VNode k u p fs)) in E. rewrite Is in E. rewrite (near_found _ _ Near) in E.
    cbn [when List.length Nat.ltb Nat.leb] in E. unfold scoped in E.
    match type of E with match ?act s1 with _ => _ end = _ => destruct (act s1) as [s3|] eqn:E3; [|discriminate] end.
    injection E as <-. rename E3 into E. cbn [s_flags u_user_defs].
    destruct (seq_ok _ _ _ _ E) as (c & _ & R1). destruct (seq_ok _ _ _ _ R1) as (d & R2 & R3).
    apply (calms_generic e _ _ (proj1 (calm_fields e fs))) in R3. apply R3.
    destruct (seq_ok _ _ _ _ R2) as (g & _ & R4). destruct (seq_ok _ _ _ _ R4) as (h & _ & R5).
    destruct (seq_ok _ _ _ _ R5) as (i & R6 & R7). apply calms_print in R7. apply R7. exact (flag_set _ _ _ R6).
  Qed.

  Lemma module_flag v n s : isa KModule v -> In n (items "body" v) -> function_def n -> counted e n -> is_init_file e = true ->
    visit e v init_st = Ok s ->
    (attr "name" n = VStr "__dir__" -> few_args n 0 -> In FModuleDir (s_flags s)) /\
    (attr "name" n = VStr "__getattr__" -> few_args n 1 -> In FModuleGetattr (s_flags s)).
  Proof.
    intros K In_ Fn Cn Init E. destruct v as [ |b|z|t|t|t|t| |l|k u p fs]; try discriminate K.
    assert (Ek : k = KModule) by (symmetry; apply kind_eqb_eq, K). subst k. unfold visit in E. cbn [sem k_visit handler] in E.
    unfold generic_visit in E.
    destruct (seq_ok _ _ _ _ E) as (s1 & E1 & R1). clear E. destruct (seq_ok _ _ _ _ R1) as (s2 & E2 & R2). clear R1.
    destruct (seq_ok _ _ _ _ R2) as (s3 & E3 & R3). clear R2. destruct (seq_ok _ _ _ _ R3) as (s4 & E4 & R4). clear R3.
    injection R4 as <-. injection E2 as <-. cbn [s_flags u_depth].
    assert (D3 : s_depth s3 = 1).
    { assert (C1 : calm init_st s1) by (destruct (pos_of _) as [[l c]|]; injection E1 as <-; [calm_upd|apply calm_refl]).
      assert (C3 : calm (u_depth (s_depth s1 + 1) s1) s3).
      { unfold when in E3. destruct (_ && _); injection E3 as <-; [calm_upd|apply calm_refl]. }
      destruct C1 as (_ & _ & _ & _ & _ & A & _), C3 as (_ & _ & _ & _ & _ & B & _). cbn in A, B. rewrite B, A. reflexivity. }
    assert (HI : forall s s', calm s s' -> s_depth s = 1 -> s_depth s' = 1) by (intros a b (_ & _ & _ & _ & _ & A & _) H; congruence).
    assert (HQ : forall g s s', calm s s' -> In g (s_flags s) -> In g (s_flags s')) by (intros g a b (_ & _ & _ & _ & _ & _ & A) H; apply A, H).
    assert (Nd : is_node n = true) by (destruct n; destruct Fn as [Q|Q]; try discriminate Q; reflexivity).
    assert (Ch : child "body" n (VNode KModule u p fs)).
    { split; [exact Nd|]. change (items "body" (VNode KModule u p fs)) with (flist "body" fs) in In_. unfold flist, fld in In_.
      destruct (assoc "body" fs) as [b|] eqn:A; [|exfalso; exact In_]. apply assoc_In in A. exists b. split; [exact A|].
      destruct b; try (exfalso; exact In_). right. exists l. auto. }
    assert (L : forall g, leads (fun s => s_depth s = 1) (fun s => In g (s_flags s)) (visit e n) -> In g (s_flags s4)).
    { intros g L. exact (proj1 (leads_fields e _ _ HI (HQ g) "body" n KModule u p fs Ch L) s3 s4 D3 E4). }
    destruct n as [ |b|z|t|t|t|t| |l|k u' p' fs']; try discriminate Nd.
    assert (H : forall s s', s_depth s = 1 -> visit e (VNode k u' p' fs') s = Ok s' -> exists s1,
                handle_functiondef e (VNode k u' p' fs') fs' (kids fs') s = Ok s1 /\ incl (s_flags s1) (s_flags s')).
    { intros a b Da Ev. unfold visit in Ev. cbn [sem k_visit] in Ev. destruct Fn as [Q|Q]; apply kind_eqb_eq in Q; subst k; cbn [handler] in Ev.
      - unfold visit_functiondef, unless_no_line in Ev. rewrite (counted_line e _ Cn) in Ev. unfold rd at 1 in Ev.
        destruct (seq_ok _ _ _ _ Ev) as (a1 & Ea & Rb). injection Rb as <-. exists a1. split; [exact Ea|apply incl_refl].
      - unfold visit_asyncfunctiondef, unless_no_line in Ev. rewrite (counted_line e _ Cn) in Ev. unfold rd at 1 in Ev.
        destruct (seq_ok _ _ _ _ Ev) as (a1 & Ea & Rb). exists a1. split; [exact Ea|]. clear Ev Ea.
        destruct (seq_ok _ _ _ _ Rb) as (a2 & E2' & Rc). clear Rb. destruct (seq_ok _ _ _ _ Rc) as (a3 & E3' & Rd). clear Rc.
        destruct (seq_ok _ _ _ _ Rd) as (a4 & E4' & Re). clear Rd. destruct (seq_ok _ _ _ _ Re) as (a5 & E5' & Rf). clear Re.
        injection Rf as <-. injection E5' as <-. cbn [s_flags u_seen_await u_seen_yield].
        apply calms_flag in E2'. apply calms_print in E3'.
        assert (C4 : calm a3 a4).
        { revert E4'. generalize a3, a4. match goal with |- forall a b, ?act a = Ok b -> calm a b => change (calms act) end. cc. }
        exact (proj2 (proj2 (proj2 (proj2 (proj2 (proj2 (calm_tran _ _ _ (calm_tran _ _ _ E2' E3') C4))))))). }
    destruct (calm_fields e fs') as [F1 F2].
    split; intros Name (A1 & A2 & A3 & A4); apply L; intros a b Da Ev; destruct (H a b Da Ev) as (a1 & Ea & Inc); apply Inc;
      destruct (module_function e k u' p' fs' (kids fs') F1 F2 a a1 Da Init A1 A2 A3 Ea) as [X Y];
      [apply X|apply Y]; auto; unfold fstr; change (fld "name" fs') with (attr "name" (VNode k u' p' fs')); rewrite Name; reflexivity.
  Qed.
End Found.
