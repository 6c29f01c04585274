(** Two analyses of a source in files of different names. Lemmas for C81. *)
From Verif Require Import PyBase PyLemmas Utility RulesData Rules Config Formats Paths AstKinds Ast State Visitor
  Spec_Base Spec_Visitor Spec_MinVersions Spec_Same Proof_Tour.

(** What is recorded, but for functions of modules. *)
Definition told (f : flag) : bool := negb (flag_eqb f FModuleDir || flag_eqb f FModuleGetattr).
Definition flags_like (a b : list flag) : Prop := forall f, told f = true -> existsb (flag_eqb f) a = existsb (flag_eqb f) b.
Definition like (s s' : st) : Prop := exists o l c g, flags_like (s_flags s) g /\ s' = u_out o (u_line l (u_lcs c (u_flags g s))).
Definition simr (r r' : res st) : Prop :=
  match r, r' with Ok s, Ok s' => like s s' | Err x, Err x' => x = x' | _, _ => False end.
Definition sim (a a' : act) : Prop := forall s s', like s s' -> simr (a s) (a' s').

Lemma like_refl s : like s s.
Proof. exists (s_out s), (s_line s), (s_lcs s), (s_flags s). split; [intros f _; reflexivity|]. destruct s. reflexivity. Qed.

Lemma sim_nop : sim nop nop.
Proof. intros s s' L. exact L. Qed.
Lemma sim_seq a a' b b' : sim a a' -> sim b b' -> sim (a >> b) (a' >> b').
Proof.
  intros A B s s' L. specialize (A _ _ L). unfold seq. destruct (a s), (a' s'); cbn in A; try contradiction.
  - apply B, A.
  - exact A.
Qed.
Lemma sim_skip a b b' : sim a nop -> sim b b' -> sim (a >> b) b'.
Proof. intros A B. change b' with (nop >> b'). apply sim_seq; assumption. Qed.
Lemma sim_when b b' a a' : b = b' -> (b = true -> sim a a') -> sim (when b a) (when b' a').
Proof. intros <-. destruct b; [auto|]. intros _. apply sim_nop. Qed.
Lemma sim_rd f f' : (forall s o l c g, f' (u_out o (u_line l (u_lcs c (u_flags g s)))) = f' s) -> (forall s, sim (f s) (f' s)) ->
  sim (rd f) (rd f').
Proof. intros E F s s' L. unfold rd. destruct L as (o & l & c & g & G & ->). rewrite E. apply F. exists o, l, c, g. auto. Qed.
Lemma sim_upd f f' : (forall s o l c g, flags_like (s_flags s) g -> like (f s) (f' (u_out o (u_line l (u_lcs c (u_flags g s)))))) -> sim (upd f) (upd f').
Proof. intros F s s' (o & l & c & g & G & ->). apply F. exact G. Qed.
Lemma sim_upd_eq f f' : (forall s o l c g, f' (u_out o (u_line l (u_lcs c (u_flags g s)))) = u_out o (u_line l (u_lcs c (u_flags g (f s))))) ->
  (forall s, s_flags (f s) = s_flags s) -> sim (upd f) (upd f').
Proof. intros F K. apply sim_upd. intros s o l c g G. exists o, l, c, g. split; [rewrite K; exact G|apply F]. Qed.
Lemma sim_with_res {A} (m m' : res A) f f' : m = m' -> (forall a, m = Ok a -> sim (f a) (f' a)) -> sim (with_res m f) (with_res m' f').
Proof. intros <- F. destruct m; [apply F; reflexivity|]. intros s s' L. reflexivity. Qed.
Lemma sim_each {A} (f f' : A -> act) l : (forall x, In x l -> sim (f x) (f' x)) -> sim (each f l) (each f' l).
Proof.
  intros F. induction l; [apply sim_nop|]. cbn [each]. apply sim_seq; [apply F; left; reflexivity|].
  apply IHl. intros x I. apply F. right. exact I.
Qed.
Lemma sim_scoped a a' : sim a a' -> sim (scoped a) (scoped a').
Proof.
  intros A s s' L. specialize (A _ _ L). unfold scoped. destruct (a s), (a' s'); cbn in A; try contradiction; [|exact A].
  destruct A as (o & l & c & g & G & ->), L as (o' & l' & c' & g' & G' & ->). exists o, l, c, g. split; [exact G|reflexivity].
Qed.
Lemma flag_eqb_eq f g : flag_eqb f g = true <-> f = g.
Proof. destruct f, g; cbn; split; intros H; try reflexivity; try discriminate H. Qed.
Lemma flag_add f x a : existsb (flag_eqb x) (if existsb (flag_eqb f) a then a else f :: a) = flag_eqb x f || existsb (flag_eqb x) a.
Proof.
  destruct (existsb (flag_eqb f) a) eqn:E; [|reflexivity]. destruct (flag_eqb x f) eqn:F; [|reflexivity]. apply flag_eqb_eq in F as ->. exact E.
Qed.
Lemma set_flag_form f s : set_flag f s = Ok (u_flags (if existsb (flag_eqb f) (s_flags s) then s_flags s else f :: s_flags s) s).
Proof. unfold set_flag, upd. destruct (existsb _ _); destruct s; reflexivity. Qed.
Lemma sim_flag f : sim (set_flag f) (set_flag f).
Proof.
  intros s s' (o & l & c & g & G & ->). rewrite !set_flag_form. cbn [simr s_flags u_out u_line u_lcs u_flags].
  exists o, l, c, (if existsb (flag_eqb f) g then g else f :: g). split; [|reflexivity].
  intros x X. cbn [s_flags u_flags]. rewrite !flag_add, (G x X). reflexivity.
Qed.
Lemma sim_lc x l c x' l' c' : sim (add_lc x l c) (add_lc x' l' c').
Proof. apply sim_upd. intros s o l1 c1 g G. exists o, l1, ((x', (l', c')) :: c1), g. split; [exact G|reflexivity]. Qed.
Lemma sim_lc_val x l : sim (add_lc_val x l) (add_lc_val x l).
Proof. unfold add_lc_val. destruct x; first [apply sim_nop | apply sim_lc]. Qed.

Section Anywhere.
  Variables (c : config) (path path' : string) (src : option string) (nl : list Z)
    (sd : list (string * string) -> pyval -> res bool) (d d' : pyval -> string).
  Hypothesis Targets : targets_given c.
  Let e := mkEnv c path src nl sd d.
  Let e' := mkEnv c path' src nl sd d'.

  Lemma print_quiet (g : env) lv m en li ve pl s : targets_given (e_cfg g) -> exists o, verbose_print_v g lv m en li ve pl s = Ok (u_out o s).
  Proof.
    intros T. unfold verbose_print_v. assert (V : exists b, violates g ve = Ok b).
    { unfold violates. destruct ve; [|eauto]. destruct (c_only_show_violations (e_cfg g)) eqn:O; [|cbn; eauto].
      cbn [negb]. unfold aligned_targets. specialize (T O). destruct (c_targets (e_cfg g)) as [|t [|t2 r]]; [contradiction| |]; cbn; eauto. }
    destruct V as (b & ->). assert (Z : u_out (s_out s) s = s) by (destruct s; reflexivity).
    destruct b; [|exists (s_out s); rewrite Z; reflexivity].
    destruct (_ || _); [exists (s_out s); rewrite Z; reflexivity|].
    destruct (match en with Some x => _ | None => _ end) as [[? ?]|]; eexists; reflexivity.
  Qed.
  Lemma sim_print lv m en li ve pl lv' m' en' li' ve' pl' :
    sim (verbose_print_v e lv m en li ve pl) (verbose_print_v e' lv' m' en' li' ve' pl').
  Proof.
    intros s s' (o & l & k & g & G & ->).
    destruct (print_quiet e lv m en li ve pl s Targets) as (o1 & ->).
    destruct (print_quiet e' lv' m' en' li' ve' pl' (u_out o (u_line l (u_lcs k (u_flags g s)))) Targets) as (o2 & ->).
    exists o2, l, k, g. split; [exact G|reflexivity].
  Qed.
  (** *** What is only recorded for __init__.py *)
  Definition inert (a : act) : Prop := forall s, exists o g, a s = Ok (u_out o (u_flags g s)) /\ flags_like (s_flags s) g.
  Lemma inert_nop : inert nop.
  Proof. intros s. exists (s_out s), (s_flags s). split; [destruct s; reflexivity|intros f _; reflexivity]. Qed.
  Lemma inert_seq a b : inert a -> inert b -> inert (a >> b).
  Proof.
    intros A B s. destruct (A s) as (o & g & E & G). destruct (B (u_out o (u_flags g s))) as (o' & g' & E' & G'). exists o', g'.
    split; [unfold seq; rewrite E; exact E'|]. intros f T. rewrite (G f T). exact (G' f T).
  Qed.
  Lemma inert_when b a : (b = true -> inert a) -> inert (when b a).
  Proof. destruct b; intros A; [exact (A eq_refl)|apply inert_nop]. Qed.
  Lemma inert_if (b : bool) a a' : (b = true -> inert a) -> (b = false -> inert a') -> inert (if b then a else a').
  Proof. destruct b; auto. Qed.
  Lemma inert_flag f : told f = false -> inert (set_flag f).
  Proof.
    intros T s. rewrite set_flag_form. exists (s_out s), (if existsb (flag_eqb f) (s_flags s) then s_flags s else f :: s_flags s).
    split; [destruct s; reflexivity|]. intros x X. rewrite flag_add. destruct (flag_eqb x f) eqn:E; [|reflexivity]. apply flag_eqb_eq in E as ->. congruence.
  Qed.
  Lemma inert_print g lv m en li ve pl : targets_given (e_cfg g) -> inert (verbose_print_v g lv m en li ve pl).
  Proof. intros T s. destruct (print_quiet g lv m en li ve pl s T) as (o & ->). exists o, (s_flags s). split; [destruct s; reflexivity|intros f _; reflexivity]. Qed.
  Lemma sim_inert a a' : inert a -> inert a' -> sim a a'.
  Proof.
    intros A A' s s' (o & l & k & g & G & ->). destruct (A s) as (o1 & g1 & -> & G1).
    destruct (A' (u_out o (u_line l (u_lcs k (u_flags g s))))) as (o2 & g2 & -> & G2). cbn [simr]. exists o2, l, k, g2. split; [|reflexivity].
    intros f T. cbn [s_flags u_flags u_out u_line u_lcs] in *. rewrite <- (G1 f T), (G f T). exact (G2 f T).
  Qed.
  Lemma sim_no_line l a a' : (~ In l nl -> sim a a') -> sim (unless_no_line e l a) (unless_no_line e' l a').
  Proof.
    unfold unless_no_line. change (is_no_line e' l) with (is_no_line e l). destruct (is_no_line e l) eqn:N; [intros _; apply sim_nop|].
    intros A. apply A. intros I. unfold is_no_line in N. apply Bool.not_true_iff_false in N. apply N. apply existsb_exists.
    exists l. split; [exact I|apply Z.eqb_refl].
  Qed.

  Ltac cfgs := change (e_cfg e') with (e_cfg e); repeat match goal with |- context [kw_accepted e' ?a ?b ?x] => change (kw_accepted e' a b x) with (kw_accepted e a b x) end.
  Ltac s1 :=
    lazymatch goal with
    | |- sim nop nop => apply sim_nop
    | |- sim (_ >> _) (_ >> _) => apply sim_seq
    | |- sim (when (_ && is_init_file _ && _ && _ && _) _) _ => apply sim_inert; (apply inert_when; intros _; apply inert_if; intros _; [|apply inert_when; intros _]; (apply inert_seq; [apply inert_flag; vm_compute; reflexivity|apply inert_print; exact Targets]))
    | |- sim (when _ _) (when _ _) => apply sim_when; [reflexivity|intros ?C]
    | |- sim (rd _) (rd _) => apply sim_rd; [intros; reflexivity|intros ?s]
    | |- sim (scoped _) (scoped _) => apply sim_scoped
    | |- sim (with_res _ _) (with_res _ _) => apply sim_with_res; [reflexivity|intros ?r ?Er]
    | |- sim (unless_no_line _ _ _) (unless_no_line _ _ _) => apply sim_no_line; intros ?NL
    | |- sim (each _ _) (each _ _) => apply sim_each; intros ?x ?I
    | |- sim (set_flag _) (set_flag _) => apply sim_flag
    | |- sim (add_lc _ _ _) (add_lc _ _ _) => apply sim_lc
    | |- sim (add_lc_val _ _) (add_lc_val _ _) => apply sim_lc_val
    | |- sim (verbose_print_v _ _ _ _ _ _ _) _ => apply sim_print
    | |- sim (vv _ _ _) _ => apply sim_print
    | |- sim (vv_pl _ _ _ _) _ => apply sim_print
    | |- sim (vvl _ _ _ _) _ => apply sim_print
    | |- sim (vvl_pl _ _ _ _) _ => apply sim_print
    | |- sim (vv_msg _ _) _ => apply sim_print
    | |- sim (vvl_msg _ _ _) _ => apply sim_print
    | |- sim (vvv _ _ _) _ => apply sim_print
    | |- sim (vvvv _ _) _ => apply sim_print
    | |- sim (upd _) (upd _) => apply sim_upd_eq; [intros; reflexivity|intros ?s; solve [reflexivity|repeat match goal with |- context [match ?x with _ => _ end] => destruct x end; reflexivity]]
    | |- sim (if ?b then _ else _) (if _ then _ else _) => cfgs; destruct b eqn:?
    | |- sim (match ?x with _ => _ end) (match ?x with _ => _ end) => destruct x eqn:?
    end.
  Ltac ss := repeat s1.

  Lemma sim_add_module m l k l' k' : sim (add_module e m l k) (add_module e' m l' k').
  Proof. unfold add_module. ss. Qed.
  Lemma sim_add_member m l k l' k' : sim (add_member e m l k) (add_member e' m l' k').
  Proof. unfold add_member. ss. Qed.
  Lemma sim_add_kwargs f k l l' : sim (add_kwargs e f k l) (add_kwargs e' f k l').
  Proof. unfold add_kwargs. ss. Qed.
  Lemma sim_deco x l : sim (add_user_func_deco e x l) (add_user_func_deco e' x l).
  Proof. unfold add_user_func_deco. ss. Qed.
  Lemma sim_codecs f a w l : sim (check_codecs_function e f a w l) (check_codecs_function e' f a w l).
  Proof.
    unfold check_codecs_function, add_codecs_error_handler, add_codecs_encoding, when_const, add_ceh, add_cenc. ss.
  Qed.
  Lemma sim_typecodes a l k : sim (add_typecodes a l k) (add_typecodes a l k).
  Proof. unfold add_typecodes, add_array_typecode. ss. Qed.
  Lemma sim_user_def_node w : sim (add_user_def_node w) (add_user_def_node w).
  Proof. unfold add_user_def_node, add_user_def. ss. Qed.
  Lemma sim_target_defs w : sim (add_target_defs w) (add_target_defs w).
  Proof. unfold add_target_defs. ss. apply sim_user_def_node. Qed.
  Lemma sim_assign t w : sim (add_name_res_assign t w) (add_name_res_assign t w).
  Proof. unfold add_name_res_assign, add_name_res, add_name_res_type. ss. Qed.

  Lemma sim_dump (b b' : bool) (f f' : st -> list string) :
    sim (when b (upd (fun s => u_out (f s) s))) (when b' (upd (fun s => u_out (f' s) s))).
  Proof.
    intros s s' (o & l & k & g & G & ->). destruct b, b'; cbn; eexists _, l, k, g; (split; [exact G|]); try reflexivity.
  Qed.
  Lemma sim_position (p p' : option (Z * Z)) :
    sim (match p with Some (l, _) => upd (u_line l) | None => nop end) (match p' with Some (l, _) => upd (u_line l) | None => nop end).
  Proof.
    intros s s' (o & l & k & g & G & ->). destruct p as [[z ?]|], p' as [[z' ?]|]; cbn.
    - exists o, z', k, g. auto.
    - exists o, l, k, g. auto.
    - exists o, z', k, g. auto.
    - exists o, l, k, g. auto.
  Qed.
  Lemma sim_generic w w' ks ks' : sim (visit_fields ks) (visit_fields ks') -> sim (generic_visit e w ks) (generic_visit e' w' ks').
  Proof.
    intros F. unfold generic_visit. apply sim_seq; [apply sim_position|]. apply sim_seq; [s1|].
    apply sim_seq; [apply sim_dump|]. apply sim_seq; [exact F|s1].
  Qed.

  Section Node.
    Variables (k : kind) (u : N) (pos : option (Z * Z)) (fs : list (string * pyval)) (ks ks' : list (string * ksem)).
    Hypothesis HF : sim (visit_fields ks) (visit_fields ks').
    Hypothesis HD : sim (visit_fields (drop_returns ks)) (visit_fields (drop_returns ks')).
    Hypothesis HT : sim (each k_visit (k_list (kid "finalbody" ks))) (each k_visit (k_list (kid "finalbody" ks'))).
    Hypothesis HG : k = KClassDef -> sim (each k_gvisit (k_list (kid "body" ks))) (each k_gvisit (k_list (kid "body" ks'))).

    Lemma sim_generic_here w w' : sim (generic_visit e w ks) (generic_visit e' w' ks').
    Proof. apply sim_generic, HF. Qed.
    Lemma sim_generic_drop w w' : sim (generic_visit e w (drop_returns ks)) (generic_visit e' w' (drop_returns ks')).
    Proof. apply sim_generic, HD. Qed.

    Lemma sim_annotations line l : sim (arg_annotations e line l) (arg_annotations e' line l).
    Proof. induction l as [|a l IH]; cbn [arg_annotations]; ss; exact IH. Qed.

    Lemma sim_call w w' : sim (visit_call e w pos fs ks) (visit_call e' w' pos fs ks').
    Proof.
      unfold visit_call, call_name, call_attribute, check_gen_unp_call, gen_unpacking, push_fn, pop_fn, strftime_arg,
        add_strftime_directive, when_const. ss; try apply sim_generic_here; try apply sim_codecs; try apply sim_typecodes; try apply sim_add_member.
      all: intros ? ? ?; reflexivity.
    Qed.

    Lemma sim_keyword w w' : sim (visit_keyword e w fs ks) (visit_keyword e' w' fs ks').
    Proof.
      intros s s' L. unfold visit_keyword, rd.
      assert (Q : forall f, sim (each (fun func => add_kwargs e (kw_function s func) (as_ostr (fld "arg" fs)) (s_line s)) f)
                                (each (fun func => add_kwargs e' (kw_function s' func) (as_ostr (fld "arg" fs)) (s_line s')) f)).
      { intros f. apply sim_each. intros x _. destruct L as (o & l & z & g & G & ->). apply sim_add_kwargs. }
      assert (Fn : s_fns s' = s_fns s) by (destruct L as (o & l & z & g & G & ->); reflexivity). rewrite Fn.
      refine (sim_seq _ _ _ _ (Q _) _ s s' L). apply sim_when; [|intros _; apply sim_generic_here].
      clear Fn. induction (s_fns s) as [|f r IH]; [reflexivity|]. cbn [existsb]. rewrite IH. destruct L as (o & l & z & g & G & ->). reflexivity.
    Qed.

    Ltac leaf :=
      first
      [ apply sim_generic_here | apply sim_generic_drop | apply sim_add_module | apply sim_add_member | apply sim_codecs | apply sim_typecodes
      | apply sim_target_defs | apply sim_user_def_node | apply sim_assign | apply sim_deco | apply sim_annotations
      | apply sim_keyword | apply sim_call | exact HT | apply HG; reflexivity ].
    Ltac unf :=
      unfold visit_import, visit_import_from, visit_name, gen_unpacking, check_gen_unp_seq, check_gen_unp_dict, visit_attribute,
        attr_resolve, attr_module, visit_binop, visit_constant, visit_ellipsis, visit_joinedstr,
        add_bytes_directive, visit_assign, visit_augassign, visit_annassign, check_relaxed_decorators, check_user_func_decorators,
        visit_functiondef, visit_asyncfunctiondef, handle_functiondef, visit_await, visit_classdef, visit_namedexpr, add_arg_def,
        visit_arguments, visit_nonlocal, visit_yieldfrom, visit_match, visit_typealias, visit_yield, add_names_as_members,
        visit_raise, visit_excepthandler, visit_setcomp, visit_dictcomp, comp_scope, visit_comprehension, visit_matmult,
        visit_continue, visit_with, visit_asyncwith, handle_with, visit_dict, visit_set, visit_seq, check_gen_unp_seq,
        check_gen_unp_dict, gen_unpacking, check_builtin_generic, generic_match, visit_subscript, visit_cond, visit_asyncfor,
        handle_for, visit_while, visit_try, visit_starred, add_user_def, add_name_res, add_name_res_type, union_types_enabled,
        fstring_self_doc_enabled, check_relaxed_decorators, add_names_as_members, check_builtin_generic, generic_match, add_arg_def.

    Lemma sim_handler : sim (handler e k u pos fs ks) (handler e' k u pos fs ks').
    Proof.
      destruct k; cbn [handler]; try apply sim_nop; try apply sim_generic_here; try leaf.
        all: unf; ss; try leaf.
        all: try match goal with |- context [first_deco_line e' ?x] => change (first_deco_line e' x) with (first_deco_line e x);
          unf; ss; try leaf end.
    Qed.
  End Node.

  Definition alike (v : pyval) : Prop :=
    sim (k_visit (sem e v)) (k_visit (sem e' v)) /\ sim (k_gvisit (sem e v)) (k_gvisit (sem e' v)) /\
    sim (visit_field (sem e v)) (visit_field (sem e' v)) /\
    sim (each k_visit (k_list (sem e v))) (each k_visit (k_list (sem e' v))) /\
    sim (each k_gvisit (k_list (sem e v))) (each k_gvisit (k_list (sem e' v))).
  Definition kids (g : env) (fs : list (string * pyval)) : list (string * ksem) := map (fun fx => (fst fx, sem g (snd fx))) fs.
  Definition alike_fields (fs : list (string * pyval)) : Prop :=
    sim (visit_fields (kids e fs)) (visit_fields (kids e' fs)) /\
    sim (visit_fields (drop_returns (kids e fs))) (visit_fields (drop_returns (kids e' fs))) /\
    (forall f, sim (each k_visit (k_list (kid f (kids e fs)))) (each k_visit (k_list (kid f (kids e' fs))))) /\
    (forall f, sim (each k_gvisit (k_list (kid f (kids e fs)))) (each k_gvisit (k_list (kid f (kids e' fs))))).

  Lemma alike_cons f x fs : alike x -> alike_fields fs -> alike_fields ((f, x) :: fs).
  Proof.
    intros (_ & _ & V & L & G) (A1 & A2 & A3 & A4). split; [|split; [|split]].
    - exact (sim_seq _ _ _ _ V A1).
    - unfold drop_returns, visit_fields in *. cbn [kids map fst snd each]. destruct (String.eqb f "returns").
      + exact (sim_seq _ _ _ _ sim_nop A2).
      + exact (sim_seq _ _ _ _ V A2).
    - intros g. unfold kid. cbn [kids map fst snd assoc]. destruct (String.eqb g f); [exact L|exact (A3 g)].
    - intros g. unfold kid. cbn [kids map fst snd assoc]. destruct (String.eqb g f); [exact G|exact (A4 g)].
  Qed.

  Lemma alike_all v : alike v.
  Proof.
    induction v as [ |b|z|s|s|s|s| |l IH|k u p fs IH] using pyval_rect';
      try (split; [apply sim_nop|split; [apply sim_nop|split; [apply sim_nop|split; apply sim_nop]]]; fail).
    - assert (L : sim (each k_visit (map (sem e) l)) (each k_visit (map (sem e') l)) /\
                  sim (each k_gvisit (map (sem e) l)) (each k_gvisit (map (sem e') l))).
      { induction IH as [|x r X _ [IH1 IH2]]; [split; apply sim_nop|]. destruct X as (X1 & X2 & _).
        split; [exact (sim_seq _ _ _ _ X1 IH1)|exact (sim_seq _ _ _ _ X2 IH2)]. }
      destruct L as [L1 L2]. split; [apply sim_nop|]. split; [apply sim_nop|]. split; [exact L1|]. split; [exact L1|exact L2].
    - assert (F : alike_fields fs).
      { induction fs as [|[f x] r IHr].
        - split; [apply sim_nop|]. split; [apply sim_nop|]. split; intros; apply sim_nop.
        - inversion IH as [|? ? X Y]; subst. apply alike_cons; auto. }
      destruct F as (A1 & A2 & A3 & A4).
      assert (S : sim (k_visit (sem e (VNode k u p fs))) (k_visit (sem e' (VNode k u p fs)))).
      { cbn [sem k_visit]. apply sim_handler; [exact A1|exact A2|exact (A3 "finalbody")|]. intros _. exact (A4 "body"). }
      split; [exact S|]. split; [cbn [sem k_gvisit]; apply sim_generic, A1|]. split; [exact S|]. split; exact sim_nop.
  Qed.

  Lemma tour_anywhere v : simr (tour e v) (tour e' v).
  Proof.
    destruct (alike_all v) as (A & _). unfold tour.
    assert (S : sim (visit e v >> after_visit_all e) (visit e' v >> after_visit_all e')); [|apply S, like_refl].
    apply sim_seq; [exact A|]. unfold after_visit_all, drop_user_def. ss.
  Qed.
End Anywhere.
