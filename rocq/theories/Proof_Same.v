(** Two analyses that only differ in printing, and in statements that are excluded anyway. Lemmas for C34, C41. *)
From Verif Require Import PyBase PyLemmas Utility RulesData Rules Config Formats Paths AstKinds Ast State Visitor
  Spec_Base Spec_Visitor Spec_MinVersions Spec_Same Proof_Tour.

(** States that differ in the printed text, the current line and the recorded positions only. *)
Definition like (s s' : st) : Prop := exists o l c, s' = u_out o (u_line l (u_lcs c s)).
Definition simr (r r' : res st) : Prop :=
  match r, r' with Ok s, Ok s' => like s s' | Err x, Err x' => x = x' | _, _ => False end.
Definition sim (a a' : act) : Prop := forall s s', like s s' -> simr (a s) (a' s').

Lemma like_refl s : like s s.
Proof. exists (s_out s), (s_line s), (s_lcs s). destruct s. reflexivity. Qed.

Lemma sim_nop : sim nop nop.
Proof. intros s s' L. exact L. Qed.
Lemma sim_seq a a' b b' : sim a a' -> sim b b' -> sim (a >> b) (a' >> b').
Proof.
  intros A B s s' L. specialize (A _ _ L). unfold seq. destruct (a s), (a' s'); cbn in A; try contradiction.
  - apply B, A.
  - exact A.
Qed.
Lemma sim_skip a b b' : sim a nop -> sim b b' -> sim (a >> b) b'.
Proof. intros A B. change b' with (nop >> b'). apply sim_seq; assumption. Qed.
Lemma sim_when b b' a a' : b = b' -> (b = true -> sim a a') -> sim (when b a) (when b' a').
Proof. intros <-. destruct b; [auto|]. intros _. apply sim_nop. Qed.
Lemma sim_rd f f' : (forall s o l c, f' (u_out o (u_line l (u_lcs c s))) = f' s) -> (forall s, sim (f s) (f' s)) ->
  sim (rd f) (rd f').
Proof. intros E F s s' L. unfold rd. destruct L as (o & l & c & ->). rewrite E. apply F. exists o, l, c. reflexivity. Qed.
Lemma sim_upd f f' : (forall s o l c, like (f s) (f' (u_out o (u_line l (u_lcs c s))))) -> sim (upd f) (upd f').
Proof. intros F s s' (o & l & c & ->). apply F. Qed.
Lemma sim_upd_eq f f' : (forall s o l c, f' (u_out o (u_line l (u_lcs c s))) = u_out o (u_line l (u_lcs c (f s)))) -> sim (upd f) (upd f').
Proof. intros F. apply sim_upd. intros s o l c. exists o, l, c. apply F. Qed.
Lemma sim_with_res {A} (m m' : res A) f f' : m = m' -> (forall a, m = Ok a -> sim (f a) (f' a)) -> sim (with_res m f) (with_res m' f').
Proof. intros <- F. destruct m; [apply F; reflexivity|]. intros s s' L. reflexivity. Qed.
Lemma sim_each {A} (f f' : A -> act) l : (forall x, In x l -> sim (f x) (f' x)) -> sim (each f l) (each f' l).
Proof.
  intros F. induction l; [apply sim_nop|]. cbn [each]. apply sim_seq; [apply F; left; reflexivity|].
  apply IHl. intros x I. apply F. right. exact I.
Qed.
Lemma sim_scoped a a' : sim a a' -> sim (scoped a) (scoped a').
Proof.
  intros A s s' L. specialize (A _ _ L). unfold scoped. destruct (a s), (a' s'); cbn in A; try contradiction; [|exact A].
  destruct A as (o & l & c & ->), L as (o' & l' & c' & ->). exists o, l, c. reflexivity.
Qed.
Lemma sim_flag f : sim (set_flag f) (set_flag f).
Proof.
  apply sim_upd. intros s o l c. cbn [s_flags u_out u_line u_lcs]. destruct (existsb _ _); exists o, l, c; reflexivity.
Qed.
Lemma sim_lc x l c x' l' c' : sim (add_lc x l c) (add_lc x' l' c').
Proof. apply sim_upd. intros s o l1 c1. exists o, l1, ((x', (l', c')) :: c1). reflexivity. Qed.
Lemma sim_lc_val x l x' l' : sim (add_lc_val x l) (add_lc_val x' l').
Proof.
  assert (N : forall x l, sim (add_lc x l None) nop).
  { intros y m s s' (o & l1 & c & ->). exists o, l1, c. reflexivity. }
  assert (N' : forall x l, sim nop (add_lc x l None)).
  { intros y m s s' (o & l1 & c & ->). exists o, l1, ((y, (m, None)) :: c). reflexivity. }
  unfold add_lc_val. destruct x, x'; first [apply sim_nop | apply sim_lc | apply N | apply N'].
Qed.

Section Same.
  Variables (c c' : config) (path : string) (src : option string) (nl : list Z)
    (sd : list (string * string) -> pyval -> res bool) (d d' : pyval -> string).
  Hypothesis Same : same_analysis c c'.
  Hypothesis Targets : targets_given c.
  Hypothesis Targets' : targets_given c'.
  Let e := mkEnv c path src nl sd d.
  Let e' := mkEnv c' path src nl sd d'.

  Lemma ex_mem x : mem x (c_exclusions_set c') = mem x (c_exclusions_set c).
  Proof.
    destruct Same as (A & _). destruct (mem x (c_exclusions_set c)) eqn:M.
    - apply mem_In, A, mem_In, M.
    - apply Bool.not_true_iff_false in M. apply Bool.not_true_iff_false. intros N. apply M, mem_In, A, mem_In, N.
  Qed.
  Lemma ex1 x : is_excluded (e_cfg e') x = is_excluded (e_cfg e) x.
  Proof. apply ex_mem. Qed.
  Lemma ex2 f k : is_excluded_kwarg (e_cfg e') f k = is_excluded_kwarg (e_cfg e) f k.
  Proof. apply ex_mem. Qed.
  Lemma ex3 x : is_excluded_ceh (e_cfg e') x = is_excluded_ceh (e_cfg e) x.
  Proof. apply ex_mem. Qed.
  Lemma ex4 x : is_excluded_ce (e_cfg e') x = is_excluded_ce (e_cfg e) x.
  Proof. apply ex_mem. Qed.
  Lemma ft x : has_feature (e_cfg e') x = has_feature (e_cfg e) x.
  Proof.
    destruct Same as (_ & A & _). unfold has_feature. cbn. destruct (mem x (c_features c)) eqn:M.
    - apply mem_In, A, mem_In, M.
    - apply Bool.not_true_iff_false in M. apply Bool.not_true_iff_false. intros N. apply M, mem_In, A, mem_In, N.
  Qed.
  Lemma ev : c_eval_annotations (e_cfg e') = c_eval_annotations (e_cfg e).
  Proof. destruct Same as (_ & _ & _ & A & _). symmetry. exact A. Qed.
  Lemma kwa s f k : kw_accepted e' s f k = kw_accepted e s f k.
  Proof. unfold kw_accepted. rewrite ex2. reflexivity. Qed.

  Lemma print_quiet (g : env) lv m en li ve pl s : targets_given (e_cfg g) -> exists o, verbose_print_v g lv m en li ve pl s = Ok (u_out o s).
  Proof.
    intros T. unfold verbose_print_v. assert (V : exists b, violates g ve = Ok b).
    { unfold violates. destruct ve; [|eauto]. destruct (c_only_show_violations (e_cfg g)) eqn:O; [|cbn; eauto].
      cbn [negb]. unfold aligned_targets. specialize (T O). destruct (c_targets (e_cfg g)) as [|t [|t2 r]]; [contradiction| |]; cbn; eauto. }
    destruct V as (b & ->). assert (Z : u_out (s_out s) s = s) by (destruct s; reflexivity).
    destruct b; [|exists (s_out s); rewrite Z; reflexivity].
    destruct (_ || _); [exists (s_out s); rewrite Z; reflexivity|].
    destruct (match en with Some x => _ | None => _ end) as [[? ?]|]; eexists; reflexivity.
  Qed.
  Lemma sim_print lv m en li ve pl lv' m' en' li' ve' pl' :
    sim (verbose_print_v e lv m en li ve pl) (verbose_print_v e' lv' m' en' li' ve' pl').
  Proof.
    intros s s' (o & l & k & ->).
    destruct (print_quiet e lv m en li ve pl s Targets) as (o1 & ->).
    destruct (print_quiet e' lv' m' en' li' ve' pl' (u_out o (u_line l (u_lcs k s))) Targets') as (o2 & ->).
    exists o2, l, k. reflexivity.
  Qed.
  Lemma sim_no_line l a a' : (~ In l nl -> sim a a') -> sim (unless_no_line e l a) (unless_no_line e' l a').
  Proof.
    unfold unless_no_line. change (is_no_line e' l) with (is_no_line e l). destruct (is_no_line e l) eqn:N; [intros _; apply sim_nop|].
    intros A. apply A. intros I. unfold is_no_line in N. apply Bool.not_true_iff_false in N. apply N. apply existsb_exists.
    exists l. split; [exact I|apply Z.eqb_refl].
  Qed.

  Ltac cfgs := rewrite ?ex1, ?ex2, ?ex3, ?ex4, ?ft, ?ev, ?kwa.
  Ltac s1 :=
    lazymatch goal with
    | |- sim nop nop => apply sim_nop
    | |- sim (_ >> _) (_ >> _) => apply sim_seq
    | |- sim (when _ _) (when _ _) => apply sim_when; [cfgs; reflexivity|intros ?C]
    | |- sim (rd _) (rd _) => apply sim_rd; [intros; reflexivity|intros ?s]
    | |- sim (scoped _) (scoped _) => apply sim_scoped
    | |- sim (with_res _ _) (with_res _ _) => apply sim_with_res; [reflexivity|intros ?r ?Er]
    | |- sim (unless_no_line _ _ _) (unless_no_line _ _ _) => apply sim_no_line; intros ?NL
    | |- sim (each _ _) (each _ _) => apply sim_each; intros ?x ?I
    | |- sim (set_flag _) (set_flag _) => apply sim_flag
    | |- sim (add_lc _ _ _) (add_lc _ _ _) => apply sim_lc
    | |- sim (add_lc_val _ _) (add_lc_val _ _) => apply sim_lc_val
    | |- sim (verbose_print_v _ _ _ _ _ _ _) _ => apply sim_print
    | |- sim (vv _ _ _) _ => apply sim_print
    | |- sim (vv_pl _ _ _ _) _ => apply sim_print
    | |- sim (vvl _ _ _ _) _ => apply sim_print
    | |- sim (vvl_pl _ _ _ _) _ => apply sim_print
    | |- sim (vv_msg _ _) _ => apply sim_print
    | |- sim (vvl_msg _ _ _) _ => apply sim_print
    | |- sim (vvv _ _ _) _ => apply sim_print
    | |- sim (vvvv _ _) _ => apply sim_print
    | |- sim (upd _) (upd _) => apply sim_upd_eq; intros; reflexivity
    | |- sim (if ?b then _ else _) (if _ then _ else _) => cfgs; destruct b eqn:?
    | |- sim (match ?x with _ => _ end) (match ?x with _ => _ end) => destruct x eqn:?
    end.
  Ltac ss := repeat s1.

  Lemma sim_add_module m l k l' k' : sim (add_module e m l k) (add_module e' m l' k').
  Proof. unfold add_module. ss. Qed.
  Lemma sim_add_member m l k l' k' : sim (add_member e m l k) (add_member e' m l' k').
  Proof. unfold add_member. ss. Qed.
  Lemma sim_add_kwargs f k l l' : sim (add_kwargs e f k l) (add_kwargs e' f k l').
  Proof. unfold add_kwargs. ss. Qed.
  Lemma sim_deco x l : sim (add_user_func_deco e x l) (add_user_func_deco e' x l).
  Proof. unfold add_user_func_deco. ss. Qed.
  Lemma sim_codecs f a w l : sim (check_codecs_function e f a w l) (check_codecs_function e' f a w l).
  Proof.
    unfold check_codecs_function, add_codecs_error_handler, add_codecs_encoding, when_const, add_ceh, add_cenc. ss.
  Qed.
  Lemma sim_typecodes a l k : sim (add_typecodes a l k) (add_typecodes a l k).
  Proof. unfold add_typecodes, add_array_typecode. ss. Qed.
  Lemma sim_user_def_node w : sim (add_user_def_node w) (add_user_def_node w).
  Proof. unfold add_user_def_node, add_user_def. ss. Qed.
  Lemma sim_target_defs w : sim (add_target_defs w) (add_target_defs w).
  Proof. unfold add_target_defs. ss. apply sim_user_def_node. Qed.
  Lemma sim_assign t w : sim (add_name_res_assign t w) (add_name_res_assign t w).
  Proof. unfold add_name_res_assign, add_name_res, add_name_res_type. ss. Qed.

  Lemma sim_dump (b b' : bool) (f f' : st -> list string) :
    sim (when b (upd (fun s => u_out (f s) s))) (when b' (upd (fun s => u_out (f' s) s))).
  Proof.
    intros s s' (o & l & k & ->). destruct b, b'; cbn; eexists _, l, k; try reflexivity.
  Qed.
  Lemma sim_position (p p' : option (Z * Z)) :
    sim (match p with Some (l, _) => upd (u_line l) | None => nop end) (match p' with Some (l, _) => upd (u_line l) | None => nop end).
  Proof.
    intros s s' (o & l & k & ->). destruct p as [[z ?]|], p' as [[z' ?]|]; cbn.
    - exists o, z', k. reflexivity.
    - exists o, l, k. reflexivity.
    - exists o, z', k. reflexivity.
    - exists o, l, k. reflexivity.
  Qed.
  Lemma sim_generic w w' ks ks' : sim (visit_fields ks) (visit_fields ks') -> sim (generic_visit e w ks) (generic_visit e' w' ks').
  Proof.
    intros F. unfold generic_visit. apply sim_seq; [apply sim_position|]. apply sim_seq; [s1|].
    apply sim_seq; [apply sim_dump|]. apply sim_seq; [exact F|s1].
  Qed.

  Section Node.
    Variables (k : kind) (u : N) (pos : option (Z * Z)) (fs fs' : list (string * pyval)) (ks ks' : list (string * ksem)).
    Hypothesis HF : sim (visit_fields ks) (visit_fields ks').
    Hypothesis HD : sim (visit_fields (drop_returns ks)) (visit_fields (drop_returns ks')).
    Hypothesis HT : sim (each k_visit (k_list (kid "finalbody" ks))) (each k_visit (k_list (kid "finalbody" ks'))).
    Hypothesis HG : k = KClassDef -> sim (each k_gvisit (k_list (kid "body" ks))) (each k_gvisit (k_list (kid "body" ks'))).
    Hypothesis Hfld : forall f, mem f blocks = false -> fld f fs' = fld f fs.
    Hypothesis Hfs : In k holders \/ fs' = fs.

    Lemma sim_generic_here w w' : sim (generic_visit e w ks) (generic_visit e' w' ks').
    Proof. apply sim_generic, HF. Qed.
    Lemma sim_generic_drop w w' : sim (generic_visit e w (drop_returns ks)) (generic_visit e' w' (drop_returns ks')).
    Proof. apply sim_generic, HD. Qed.

    Lemma sim_annotations line l : sim (arg_annotations e line l) (arg_annotations e' line l).
    Proof. induction l as [|a l IH]; cbn [arg_annotations]; ss; exact IH. Qed.

    Lemma sim_call w w' : sim (visit_call e w pos fs ks) (visit_call e' w' pos fs ks').
    Proof.
      unfold visit_call, call_name, call_attribute, check_gen_unp_call, gen_unpacking, push_fn, pop_fn, strftime_arg,
        add_strftime_directive, when_const. ss; try apply sim_generic_here; try apply sim_codecs; try apply sim_typecodes; try apply sim_add_member.
      all: intros ? ? ?; reflexivity.
    Qed.

    Lemma sim_keyword w w' : sim (visit_keyword e w fs ks) (visit_keyword e' w' fs ks').
    Proof.
      intros s s' L. unfold visit_keyword, rd.
      assert (Q : forall f, sim (each (fun func => add_kwargs e (kw_function s func) (as_ostr (fld "arg" fs)) (s_line s)) f)
                                (each (fun func => add_kwargs e' (kw_function s' func) (as_ostr (fld "arg" fs)) (s_line s')) f)).
      { intros f. apply sim_each. intros x _. destruct L as (o & l & z & ->). apply sim_add_kwargs. }
      assert (Fn : s_fns s' = s_fns s) by (destruct L as (o & l & z & ->); reflexivity). rewrite Fn.
      refine (sim_seq _ _ _ _ (Q _) _ s s' L). apply sim_when; [|intros _; apply sim_generic_here].
      clear Fn. induction (s_fns s) as [|f r IH]; [reflexivity|]. cbn [existsb]. rewrite kwa, IH. destruct L as (o & l & z & ->). reflexivity.
    Qed.

    Ltac leaf :=
      first
      [ apply sim_generic_here | apply sim_generic_drop | apply sim_add_module | apply sim_add_member | apply sim_codecs | apply sim_typecodes
      | apply sim_target_defs | apply sim_user_def_node | apply sim_assign | apply sim_deco | apply sim_annotations
      | apply sim_keyword | apply sim_call | exact HT | apply HG; reflexivity ].
    Ltac unf :=
      unfold visit_import, visit_import_from, visit_name, gen_unpacking, check_gen_unp_seq, check_gen_unp_dict, visit_attribute,
        attr_resolve, attr_module, visit_binop, visit_constant, visit_ellipsis, visit_joinedstr,
        add_bytes_directive, visit_assign, visit_augassign, visit_annassign, check_relaxed_decorators, check_user_func_decorators,
        visit_functiondef, visit_asyncfunctiondef, handle_functiondef, visit_await, visit_classdef, visit_namedexpr, add_arg_def,
        visit_arguments, visit_nonlocal, visit_yieldfrom, visit_match, visit_typealias, visit_yield, add_names_as_members,
        visit_raise, visit_excepthandler, visit_setcomp, visit_dictcomp, comp_scope, visit_comprehension, visit_matmult,
        visit_continue, visit_with, visit_asyncwith, handle_with, visit_dict, visit_set, visit_seq, check_gen_unp_seq,
        check_gen_unp_dict, gen_unpacking, check_builtin_generic, generic_match, visit_subscript, visit_cond, visit_asyncfor,
        handle_for, visit_while, visit_try, visit_starred, add_user_def, add_name_res, add_name_res_type, union_types_enabled,
        fstring_self_doc_enabled, check_relaxed_decorators, add_names_as_members, check_builtin_generic, generic_match, add_arg_def.

    Lemma sim_handler : sim (handler e k u pos fs ks) (handler e' k u pos fs' ks').
    Proof.
      destruct Hfs as [In_h| ->].
      - cbn [In holders] in In_h.
        repeat (destruct In_h as [<-|In_h]; [|]); [..|destruct In_h].
        all: cbn [handler]; unf; unfold flist, fstr; rewrite ?Hfld by reflexivity; ss; try leaf.
        all: match goal with |- context [first_deco_line e' ?x] => change (first_deco_line e' x) with (first_deco_line e x) end;
          unf; ss; try leaf.
      - clear Hfs Hfld.
        destruct k; cbn [handler]; try apply sim_nop; try apply sim_generic_here; try leaf.
        all: unf; ss; try leaf.
        all: try match goal with |- context [first_deco_line e' ?x] => change (first_deco_line e' x) with (first_deco_line e x);
          unf; ss; try leaf end.
    Qed.
  End Node.

  (** *** Excluded nodes do nothing *)
  Lemma no_line_in g l a : In l (e_nolines g) -> unless_no_line g l a = nop.
  Proof.
    intros I. unfold unless_no_line. replace (is_no_line g l) with true; [reflexivity|]. symmetry.
    apply existsb_exists. exists l. split; [exact I|apply Z.eqb_refl].
  Qed.
  Lemma excluded_nop g v : excluded (e_nolines g) (excludable ++ excludable_expr) v -> forall s, visit g v s = Ok s.
  Proof.
    intros (k & K & Ia & L) s. destruct (isa_kind _ _ Ia) as (u & p & fs & ->). clear Ia.
    change (lineno (VNode k u p fs)) with (pos_line p) in L.
    assert (N : forall a, unless_no_line g (pos_line p) a = nop) by (intros a; exact (no_line_in g _ a L)).
    assert (N' : forall f a, unless_no_line g (lineno (VNode f u p fs)) a = nop) by (intros f a; exact (no_line_in g _ a L)).
    unfold visit. cbn [In app excludable excludable_expr] in K.
    repeat (destruct K as [<-|K]; [|]); [..|destruct K].
    all: cbn [sem k_visit handler];
      unfold visit_import, visit_import_from, visit_assign, visit_augassign, visit_annassign, visit_functiondef,
        visit_asyncfunctiondef, visit_classdef, visit_nonlocal, visit_raise, visit_typealias, visit_with, visit_asyncwith,
        handle_for, visit_asyncfor, visit_while, visit_cond, visit_try, visit_match, visit_excepthandler, visit_call, visit_await,
        visit_namedexpr, visit_yield, visit_yieldfrom, visit_subscript; rewrite ?N, ?N'; try reflexivity.
    destruct (fld "module" fs); try reflexivity. destruct (match fld "level" fs with VInt n => _ | _ => _ end); [reflexivity|]. rewrite N. reflexivity.
  Qed.

  Lemma drop_stmt x : excluded_stmt nl x -> sim (k_visit (sem e x)) nop.
  Proof.
    intros [X|(K & y & F & X)].
    - intros s s' L. change (k_visit (sem e x)) with (visit e x). rewrite excluded_nop; [exact L|].
      destruct X as (k & I & X). exists k. split; [apply in_or_app; left; exact I|exact X].
    - destruct (isa_kind _ _ K) as (u & p & fs & ->). cbn [fields] in F. subst fs. cbn [sem map k_visit handler fst snd].
      intros s s' (o & l & z & ->).
      assert (V : forall s, visit_field (sem e y) s = Ok s).
      { intros s1. destruct X as (k & I & J & X). destruct (isa_kind _ _ J) as (uy & py & fy & ->).
        change (visit e (VNode k uy py fy) s1 = Ok s1). apply excluded_nop. exists k. split; [apply in_or_app; right; exact I|].
        split; [exact J|exact X]. }
      assert (G : forall s0, exists o1 l1, generic_visit e (VNode KExpr u p [("value", y)]) [("value", sem e y)] s0 =
                  Ok (u_out o1 (u_line l1 (u_depth (s_depth s0 + 1 - 1) s0)))).
      { intros s0. unfold generic_visit, visit_fields, seq, when. cbn [each snd].
        assert (P : exists l1, match pos_of (VNode KExpr u p [("value", y)]) with Some (l, _) => upd (u_line l) | None => nop end s0 = Ok (u_line l1 s0)).
        { cbn. destruct p as [[z0 ?]|]; [exists z0; reflexivity|]. exists (s_line s0). destruct s0; reflexivity. }
        destruct P as (l1 & ->). unfold upd at 1. destruct (_ && _); unfold upd, nop, seq; rewrite V; eexists _, l1; [reflexivity|].
        instantiate (1 := s_out s0). reflexivity. }
      destruct (G s) as (o1 & l1 & ->). cbn. exists o, l, z.
      replace (s_depth s + 1 - 1) with (s_depth s) by lia. reflexivity.
  Qed.

  Definition alike (v v' : pyval) : Prop :=
    sim (k_visit (sem e v)) (k_visit (sem e' v')) /\ sim (k_gvisit (sem e v)) (k_gvisit (sem e' v')) /\
    sim (visit_field (sem e v)) (visit_field (sem e' v')) /\
    sim (each k_visit (k_list (sem e v))) (each k_visit (k_list (sem e' v'))) /\
    sim (each k_gvisit (k_list (sem e v))) (each k_gvisit (k_list (sem e' v'))).
  Definition kids (g : env) (fs : list (string * pyval)) : list (string * ksem) := map (fun fx => (fst fx, sem g (snd fx))) fs.
  Definition alike_fields (b : bool) (fs fs' : list (string * pyval)) : Prop :=
    sim (visit_fields (kids e fs)) (visit_fields (kids e' fs')) /\
    sim (visit_fields (drop_returns (kids e fs))) (visit_fields (drop_returns (kids e' fs'))) /\
    (forall f, sim (each k_visit (k_list (kid f (kids e fs)))) (each k_visit (k_list (kid f (kids e' fs'))))) /\
    (b = true -> forall f, sim (each k_gvisit (k_list (kid f (kids e fs)))) (each k_gvisit (k_list (kid f (kids e' fs'))))) /\
    forall f, mem f blocks = false -> fld f fs' = fld f fs.
  Definition alike_block (b : bool) (l l' : list pyval) : Prop :=
    sim (each k_visit (map (sem e) l)) (each k_visit (map (sem e') l')) /\
    (b = true -> sim (each k_gvisit (map (sem e) l)) (each k_gvisit (map (sem e') l'))).

  Lemma alike_cons b f x x' fs fs' : sim (visit_field (sem e x)) (visit_field (sem e' x')) ->
    sim (each k_visit (k_list (sem e x))) (each k_visit (k_list (sem e' x'))) ->
    (b = true -> sim (each k_gvisit (k_list (sem e x))) (each k_gvisit (k_list (sem e' x')))) ->
    (x' = x \/ In f blocks) -> alike_fields b fs fs' -> alike_fields b ((f, x) :: fs) ((f, x') :: fs').
  Proof.
    intros V L G X (A1 & A2 & A3 & A4 & A5). split; [|split; [|split; [|split]]].
    - exact (sim_seq _ _ _ _ V A1).
    - unfold drop_returns, visit_fields in *. cbn [kids map fst snd each]. destruct (String.eqb f "returns").
      + exact (sim_seq _ _ _ _ sim_nop A2).
      + exact (sim_seq _ _ _ _ V A2).
    - intros g. unfold kid. cbn [kids map fst snd assoc]. destruct (String.eqb g f); [exact L|exact (A3 g)].
    - intros B g. unfold kid. cbn [kids map fst snd assoc]. destruct (String.eqb g f); [exact (G B)|exact (A4 B g)].
    - intros g M. unfold fld. cbn [assoc]. destruct (String.eqb g f) eqn:E; [|exact (A5 g M)].
      destruct X as [X|X]; [exact X|]. exfalso. apply String.eqb_eq in E as ->. apply mem_In in X. congruence.
  Qed.

  Lemma alike_node k u p fs fs' : In k holders \/ fs' = fs -> alike_fields (kind_eqb k KClassDef) fs fs' ->
    alike (VNode k u p fs) (VNode k u p fs').
  Proof.
    intros H (A1 & A2 & A3 & A4 & A5).
    assert (S : sim (k_visit (sem e (VNode k u p fs))) (k_visit (sem e' (VNode k u p fs')))).
    { cbn [sem k_visit]. apply sim_handler; try assumption; [exact (A3 "finalbody")|]. intros ->. exact (A4 eq_refl "body"). }
    split; [exact S|]. split; [cbn [sem k_gvisit]; apply sim_generic, A1|]. split; [exact S|]. split; exact sim_nop.
  Qed.

  Lemma alike_same v : alike v v.
  Proof.
    induction v as [ |b|z|s|s|s|s| |l IH|k u p fs IH] using pyval_rect';
      try (split; [apply sim_nop|split; [apply sim_nop|split; [apply sim_nop|split; apply sim_nop]]]; fail).
    - assert (L : sim (each k_visit (map (sem e) l)) (each k_visit (map (sem e') l)) /\
                  sim (each k_gvisit (map (sem e) l)) (each k_gvisit (map (sem e') l))).
      { induction IH as [|x r X _ [IH1 IH2]]; [split; apply sim_nop|]. destruct X as (X1 & X2 & _).
        split; [exact (sim_seq _ _ _ _ X1 IH1)|exact (sim_seq _ _ _ _ X2 IH2)]. }
      destruct L as [L1 L2]. split; [apply sim_nop|]. split; [apply sim_nop|]. split; [exact L1|]. split; [exact L1|exact L2].
    - apply alike_node; [right; reflexivity|]. generalize (kind_eqb k KClassDef). intros b.
      induction fs as [|[f x] r IHr].
      + split; [apply sim_nop|]. split; [apply sim_nop|]. split; [intros; apply sim_nop|]. split; [intros; apply sim_nop|reflexivity].
      + inversion IH as [|? ? X Y]; subst. destruct X as (X1 & X2 & X3 & X4 & X5). apply alike_cons; auto.
  Qed.

  Scheme erased_ind' := Minimality for erased Sort Prop
    with erased_fields_ind' := Minimality for erased_fields Sort Prop
    with erased_block_ind' := Minimality for erased_block Sort Prop.

  Lemma alike_erased v v' : erased nl v v' -> alike v v'.
  Proof.
    intros E. induction E using erased_ind' with (P0 := alike_fields) (P1 := alike_block).
    - apply alike_same.
    - apply alike_node; [left; assumption|assumption].
    - split; [apply sim_nop|]. split; [apply sim_nop|]. split; [intros; apply sim_nop|]. split; [intros; apply sim_nop|reflexivity].
    - destruct (alike_same x) as (X1 & X2 & X3 & X4 & X5). apply alike_cons; auto.
    - destruct IHE as [B1 B2]. apply alike_cons; auto.
    - split; [apply sim_nop|intros; apply sim_nop].
    - destruct IHE as (X1 & X2 & _), IHE0 as [B1 B2]. split; [exact (sim_seq _ _ _ _ X1 B1)|].
      intros B. exact (sim_seq _ _ _ _ X2 (B2 B)).
    - destruct IHE as [B1 B2]. split; [|discriminate]. cbn [map each]. apply sim_skip; [|exact B1]. apply drop_stmt. assumption.
  Qed.

  Lemma tour_alike v v' : erased nl v v' -> simr (tour e v) (tour e' v').
  Proof.
    intros E. destruct (alike_erased _ _ E) as (A & _). unfold tour.
    assert (S : sim (visit e v >> after_visit_all e) (visit e' v' >> after_visit_all e')); [|apply S, like_refl].
    apply sim_seq; [exact A|]. unfold after_visit_all, drop_user_def. ss.
  Qed.
End Same.
